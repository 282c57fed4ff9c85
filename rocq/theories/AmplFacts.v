(** * AmplFacts: how much the receiver stores for what it receives. *)
From Coq Require Import List Lia Bool ZifyBool ZifyN ZifyNat.
From Verif Require Import GoBase Crc Float64 SubRecords Records Package Storage Server
  Spec_Bits Spec_Wf Spec_Rec Spec_Pkg Spec_Server Spec_Stream BaseFacts RecFacts DecFacts PkgFacts PkgFacts2 ServerFacts ServerFacts2 StreamFacts OutFacts.
Local Open Scope N_scope.
Local Open Scope list_scope.

(** ** Contents of one subrecord *)
Lemma read_le_len tmp r x t r' : read_le tmp r = Ok (x, t, r') -> length t = length tmp /\ (length r' = length r - length tmp)%nat /\ (0 < length r)%nat.
Proof.
  unfold read_le. intros H. apply bind_ok in H as ([b r1] & H & H'). apply reader_read_len in H. apply Ok_inj in H'. injection H' as _ <- <-. exact H.
Qed.
Ltac step H := let x := fresh "x" in let Hx := fresh "S" in apply bind_ok in H as (x & Hx & H); cbn beta iota zeta in H.
Ltac pairs := repeat match goal with p : (_ * _)%type |- _ => destruct p end.
Lemma pos_len b e : pos_decode b = Ok e -> (21 <= length b)%nat.
Proof.
  unfold pos_decode. intros H. do 11 (step H; pairs). clear H.
  repeat match goal with
  | S : read_le _ _ = Ok _ |- _ => apply read_le_len in S; rewrite ?length_zeros in S
  | S : read_byte _ = Ok _ |- _ => apply read_byte_len in S
  end. lia.
Qed.
Lemma liquid_len b e : liquid_decode b = Ok e -> (4 <= length b)%nat.
Proof.
  unfold liquid_decode. intros H. do 4 (step H; pairs). clear H.
  repeat match goal with
  | S : read_le _ _ = Ok _ |- _ => apply read_le_len in S; rewrite ?length_zeros in S
  | S : read_byte _ = Ok _ |- _ => apply read_byte_len in S
  end. lia.
Qed.
Lemma opt_byte_len f c r x r' : opt_byte f c r = Ok (x, r') -> (length r' <= length r)%nat.
Proof.
  unfold opt_byte. destruct (is1 f); intros H; [apply read_byte_len in H; lia|]. apply Ok_inj in H. injection H as _ <-. lia.
Qed.
Definition cost (f : gostr) : nat := if is1 f then 3%nat else 0%nat.
Definition fits (s : nat) (r : bytes) : Prop := (s <= length r + 2)%nat /\ (length r = 0 -> s = 0)%nat.
Lemma opt_le_fits f c tmp r x t r' : length tmp = 3%nat -> opt_le f c tmp r = Ok (x, t, r') ->
  length t = 3%nat /\ forall s, fits s r' -> fits (cost f + s) r.
Proof.
  unfold opt_le, cost, fits. intros Ht. destruct (is1 f); intros H.
  - apply read_le_len in H as (H1 & H2 & H3). rewrite Ht in *. split; [exact H1|]. lia.
  - apply Ok_inj in H. injection H as _ <- <-. split; [exact Ht|]. intros s H. exact H.
Qed.
Lemma filter_len {A} (f : A -> bool) x l : length (filter f (x :: l)) = ((if f x then 1 else 0) + length (filter f l))%nat.
Proof. cbn [filter]. destruct (f x); reflexivity. Qed.
Lemma ad_len {E : go_env} b e : ad_decode b = Ok e -> (3 * length (analogue (SRAd e)) <= length b /\ length (analogue (SRAd e)) <= 8)%nat.
Proof.
  unfold ad_decode. intros H. step H. destruct x as [flags r1]. step H. destruct x as [dout r2]. step H. destruct x as [flags2 r3].
  set (d := flags_low_first (fmt_b 8 flags)) in *. set (a := flags_low_first (fmt_b 8 flags2)) in *. clearbody d a.
  apply read_byte_len in S, S0, S1.
  do 8 (step H; pairs; match goal with S : opt_byte _ _ _ = Ok _ |- _ => apply opt_byte_len in S end).
  assert (Z : length (zeros 3) = 3%nat) by reflexivity. set (z := zeros 3) in *. clearbody z.
  assert (F8 : forall r : bytes, fits 0 r) by (intros r; unfold fits; lia).
  do 8 (step H; pairs; match goal with S : opt_le _ _ ?t _ = Ok _, T : length ?t = 3%nat |- _ => apply (opt_le_fits _ _ _ _ _ _ _ T) in S; destruct S end).
  apply Ok_inj in H. subst e.
  assert (Hn : (3 * length (analogue (SRAd {| DIOE := d; DOUT := dout; ASFE := a; ADIO := mkOct n n0 n1 n2 n3 n4 n5 n6; ANS := mkOct n7 n8 n9 n10 n11 n12 n13 n14 |})) =
    cost (o1 a) + (cost (o2 a) + (cost (o3 a) + (cost (o4 a) + (cost (o5 a) + (cost (o6 a) + (cost (o7 a) + (cost (o8 a) + 0))))))))%nat).
  { cbn [analogue ASFE ANS oct_list combine]. rewrite map_length. cbn [o1 o2 o3 o4 o5 o6 o7 o8]. rewrite !filter_len. cbn [fst filter length]. unfold cost.
    repeat match goal with |- context [if ?c then 1%nat else 0%nat] => destruct c end; reflexivity. }
  match goal with
  | G1 : forall s, _ -> fits (cost (o1 a) + s) _, G2 : forall s, _ -> fits (cost (o2 a) + s) _, G3 : forall s, _ -> fits (cost (o3 a) + s) _,
    G4 : forall s, _ -> fits (cost (o4 a) + s) _, G5 : forall s, _ -> fits (cost (o5 a) + s) _, G6 : forall s, _ -> fits (cost (o6 a) + s) _,
    G7 : forall s, _ -> fits (cost (o7 a) + s) _, G8 : forall s, _ -> fits (cost (o8 a) + s) _ |- _ =>
    pose proof (G1 _ (G2 _ (G3 _ (G4 _ (G5 _ (G6 _ (G7 _ (G8 _ (F8 _))))))))) as [G _]
  end.
  assert (Hc : forall f, (cost f <= 3)%nat) by (intros f; unfold cost; destruct (is1 f); lia).
  pose proof (Hc (o1 a)). pose proof (Hc (o2 a)). pose proof (Hc (o3 a)). pose proof (Hc (o4 a)).
  pose proof (Hc (o5 a)). pose proof (Hc (o6 a)). pose proof (Hc (o7 a)). pose proof (Hc (o8 a)). lia.
Qed.

(** ** Sets of subrecords, possibly padded with zeros *)
Section Weight.
Context {E : go_env}.
Variable dec : N -> N -> bytes -> res srdata.
Variable g : srdata -> nat.
Variable G : nat.
Hypothesis G1 : (1 <= G)%nat.
Hypothesis Hg : forall t len b d, dec t len b = Ok d -> (g d <= length b /\ g d <= G)%nat.
Hypothesis H0 : forall len, match dec 0 len [] with Ok _ => False | _ => True end.
Definition w1 (d : srdata) : nat := match g d with O => O | n => (3 + n)%nat end.
Fixpoint weight (l : list record_data) : nat := match l with [] => 0 | d :: l => (w1 (SRD d) + weight l)%nat end.
Lemma w1_spec d : (g d = 0 /\ w1 d = 0 \/ 0 < g d /\ w1 d = 3 + g d)%nat.
Proof using g. clear G1. unfold w1. destruct (g d); lia. Qed.

Lemma skipn_zeros n m : skipn n (zeros m) = zeros (m - n).
Proof. revert m. induction n as [|n IH]; intros [|m]; try reflexivity. apply IH. Qed.
Lemma le_zero : le_dec (zeros 2) = 0. Proof. reflexivity. Qed.
Lemma le_copy_zeros m : le_dec (copy_into (zeros 2) (zeros m)) = 0.
Proof. destruct m as [|[|m]]; try reflexivity. unfold copy_into. cbn [zeros repeat length skipn firstn app]. rewrite skipn_nil. reflexivity. Qed.
Lemma zeros_none fuel m l : rds_loop dec fuel (zeros m) = Ok l -> l = [].
Proof.
  destruct m as [|m]; [destruct fuel; intros H; apply Ok_inj in H; auto|].
  destruct fuel as [|fuel]; [discriminate|]. change (zeros (S m)) with (0 :: zeros m). cbn [rds_loop read_byte bind].
  destruct m as [|m]; [discriminate|]. intros H. exfalso. change (zeros (S m)) with (0 :: zeros m) in H.
  assert (Hl : le_dec (copy_into (zeros 2) (0 :: zeros m)) = 0) by (apply (le_copy_zeros (S m))).
  cbn [buffer_read bind] in H. rewrite Hl in H. cbn [buffer_next N.to_nat firstn] in H.
  pose proof (H0 0) as Hd. destruct (dec 0 0 []); [contradiction|discriminate H..].
Qed.
Lemma rds_weight fuel : forall r l, rds_loop dec fuel r = Ok l -> (weight l <= length r)%nat.
Proof.
  induction fuel as [|fuel IH]; intros r l H.
  { destruct r; [|discriminate]. apply Ok_inj in H. subst. cbn. lia. }
  destruct r as [|t r]; [apply Ok_inj in H; subst; cbn; lia|].
  cbn [rds_loop read_byte bind] in H. apply bind_ok in H as ([lb r1] & H1 & H). unfold buffer_next in H.
  apply bind_ok in H as (d & Hd & H). apply bind_ok in H as (l' & Hl' & H). apply Ok_inj in H. subst l.
  apply Hg in Hd. cbn [weight SRD length]. pose proof (w1_spec d).
  assert (Hr1 : (length r1 = length r - 2)%nat /\ (1 <= length r)%nat).
  { destruct r as [|x r]; [discriminate|]. cbn [buffer_read] in H1. apply Ok_inj, (f_equal snd) in H1. cbn [snd] in H1. rewrite <- H1, skipn_length. cbn [length zeros repeat]. lia. }
  apply IH in Hl' as Hw. rewrite skipn_length in Hw. destruct Hd as [Hd _]. rewrite firstn_length in Hd.
  destruct (Nat.le_gt_cases (length r1) (N.to_nat (le_dec lb))) as [Hc|Hc]; [|lia].
  assert (l' = []) as -> by (rewrite skipn_all2 in Hl' by exact Hc; destruct fuel; apply Ok_inj in Hl'; auto). cbn [weight]. lia.
Qed.
Lemma rds_weight_padded fuel : forall r m l, rds_loop dec fuel (r ++ zeros m) = Ok l -> (weight l <= length r + G + 1)%nat.
Proof.
  induction fuel as [|fuel IH]; intros r m l H.
  { destruct r; [|discriminate]. apply zeros_none in H. subst. cbn. lia. }
  destruct r as [|t r]; [apply zeros_none in H; subst; cbn; lia|].
  cbn [app rds_loop read_byte bind] in H. apply bind_ok in H as ([lb r1] & H1 & H). unfold buffer_next in H.
  apply bind_ok in H as (d & Hd & H). apply bind_ok in H as (l' & Hl' & H). apply Ok_inj in H. subst l.
  apply Hg in Hd. destruct Hd as [Hd HdG]. rewrite firstn_length in Hd. cbn [weight SRD length]. pose proof (w1_spec d).
  destruct r as [|x [|y r]].
  - cbn [app] in H1. destruct m as [|m]; [discriminate|].
    assert (Hz : le_dec lb = 0 /\ exists k, r1 = zeros k).
    { change (zeros (S m)) with (0 :: zeros m) in H1. cbn [buffer_read] in H1. apply Ok_inj in H1. injection H1 as <- <-. split; [apply (le_copy_zeros (S m))|].
      exists (m - 1)%nat. exact (skipn_zeros 1 m). }
    destruct Hz as [Hz [k ->]]. rewrite Hz in *. cbn [N.to_nat skipn] in Hl'. apply zeros_none in Hl'. subst l'. cbn [weight length] in *. lia.
  - assert (Hz : exists k, r1 = zeros k).
    { cbn [app buffer_read] in H1. apply Ok_inj in H1. injection H1 as _ <-.
      exists (m - 1)%nat. exact (skipn_zeros 1 m). }
    destruct Hz as [k ->]. rewrite skipn_zeros in Hl'. apply zeros_none in Hl'. subst l'. cbn [weight length] in *. lia.
  - assert (r1 = r ++ zeros m) as -> by (cbn [app buffer_read] in H1; apply Ok_inj in H1; injection H1 as _ <-; reflexivity).
    rewrite skipn_app, skipn_zeros in Hl'. apply IH in Hl' as Hw. rewrite skipn_length in Hw. cbn [length].
    destruct (Nat.le_gt_cases (N.to_nat (le_dec lb)) (length r)) as [Hc|Hc]; [rewrite app_length in Hd; lia|].
    rewrite skipn_all2 in Hl' by lia. apply zeros_none in Hl'. subst l'. cbn [weight]. lia.
Qed.
Definition weights (l : list sdr) : nat := list_sum (map (fun s => (7 + weight (RD s))%nat) l).
Lemma sdr_weight r s r' : sdr_decode (fun rb => rds_loop dec (length rb) rb) r = Ok (s, r') ->
  (7 + weight (RD s) + length r' <= length r)%nat \/ r' = [] /\ (7 + weight (RD s) <= length r + G + 1)%nat.
Proof.
  intros H. unfold sdr_decode in H. cbv zeta in H.
  apply bind_ok in H. destruct H as ([b r1] & S1 & H). apply reader_read_len in S1. rewrite length_zeros in S1.
  apply bind_ok in H. destruct H as ([b2 r2] & S2 & H). apply reader_read_len in S2.
  apply bind_ok in H. destruct H as ([fl r3] & S3 & H). apply read_byte_len in S3.
  apply bind_ok in H. destruct H as ([oid r4] & S4 & H). apply opt4_len in S4.
  apply bind_ok in H. destruct H as ([ev r5] & S5 & H). apply opt4_len in S5.
  apply bind_ok in H. destruct H as ([tm r6] & S6 & H). apply opt4_len in S6.
  apply bind_ok in H. destruct H as ([sst r7] & S7 & H). apply read_byte_len in S7.
  apply bind_ok in H. destruct H as ([rst r8] & S8 & H). apply read_byte_len in S8.
  apply bind_ok in H. destruct H as ([rd r9] & S9 & H). apply Ok_inj in H. injection H as <- <-. cbn [RD].
  destruct r8 as [|y r8]; [apply Ok_inj in S9; injection S9 as <- <-; cbn [weight length] in *; left; lia|].
  apply bind_ok in S9. destruct S9 as ([rb ra] & Ha & S9).
  apply bind_ok in S9. destruct S9 as (l & Hl & S9). apply Ok_inj in S9. injection S9 as <- <-.
  set (rl := N.to_nat (le_dec b)) in *. clearbody rl. unfold reader_read in Ha. apply Ok_inj in Ha. injection Ha as <- <-. rewrite length_zeros.
  unfold copy_into in Hl. rewrite length_zeros, skipn_zeros in Hl.
  destruct (Nat.le_gt_cases rl (length (y :: r8))) as [Hc|Hc].
  - left. replace (rl - length (y :: r8))%nat with 0%nat in Hl by lia. cbn [zeros repeat] in Hl. rewrite app_nil_r in Hl.
    apply rds_weight in Hl. rewrite firstn_length in Hl. rewrite skipn_length. cbn [length] in *. lia.
  - right. split; [apply skipn_all2; lia|]. apply rds_weight_padded in Hl. rewrite firstn_length in Hl. cbn [length] in *. lia.
Qed.
End Weight.
Section Sets.
Context {E : go_env}.
Variable g : srdata -> nat.
Variable G : nat.
Hypothesis G1 : (1 <= G)%nat.
Hypothesis Hg : forall depth t len b d, sub_decode depth t len b = Ok d -> (g d <= length b /\ g d <= G)%nat.

Lemma sds_weight depth fuel : forall r l, sds_loop (rds_decode_d depth) fuel r = Ok l -> (weights g l <= length r + G + 1)%nat.
Proof.
  assert (H0 : forall len, match sub_decode depth 0 len [] with Ok _ => False | _ => True end) by (intros len; destruct depth; exact I).
  induction fuel as [|fuel IH]; intros r l H.
  { destruct r; [|discriminate]. apply Ok_inj in H. subst. unfold weights. cbn. lia. }
  destruct r as [|t r]; [apply Ok_inj in H; subst; unfold weights; cbn; lia|].
  cbn [sds_loop] in H. apply bind_ok in H as ([s r'] & Hs & H). apply bind_ok in H as (l' & Hl & H). apply Ok_inj in H. subst l.
  unfold weights. cbn [map list_sum fold_right]. fold (list_sum (map (fun s => (7 + weight g (RD s))%nat) l')). fold (weights g l').
  apply (sdr_weight (sub_decode depth) g G G1 (Hg depth) H0) in Hs. destruct Hs as [Hs|[-> Hs]].
  - apply IH in Hl. lia.
  - assert (l' = []) as -> by (destruct fuel; apply Ok_inj in Hl; auto). unfold weights. cbn [map list_sum fold_right]. lia.
Qed.
Lemma weight_sum l : forall h : srdata -> nat, (forall d, h d = 0 \/ h d <= 3 + g d /\ 0 < g d)%nat ->
  (list_sum (map h (map SRD l)) <= weight g l)%nat.
Proof using g.
  clear G1 Hg. intros h Hh. induction l as [|d l IH]; [cbn; lia|]. cbn [map list_sum fold_right weight]. fold (list_sum (map h (map SRD l))).
  pose proof (w1_spec g (SRD d)). pose proof (Hh (SRD d)). lia.
Qed.
Lemma weights_sum l : forall h : srdata -> nat, (forall d, h d = 0 \/ h d <= 3 + g d /\ 0 < g d)%nat ->
  (7 * length l + list_sum (map h (subrecords l)) <= weights g l)%nat.
Proof using g.
  clear G1 Hg. intros h Hh. unfold weights, subrecords. induction l as [|s l IH]; [cbn; lia|]. cbn [map flat_map list_sum fold_right length].
  rewrite map_app, list_sum_app. pose proof (weight_sum (RD s) h Hh).
  change (fold_right Nat.add 0%nat (map (fun s => (7 + weight g (RD s))%nat) l)) with (list_sum (map (fun s => (7 + weight g (RD s))%nat) l)). lia.
Qed.
Lemma unit_weight u p l : bytes_ok u = true -> pkg_decode pkg0 (mkSlice u (room u)) = (p, DRet 0 false) -> pSFRD p = Some (FSds l) ->
  (12 + weights g l <= length u + G + 1)%nat.
Proof.
  intros Hb Hd Hl. apply accept_iff in Hd; [|exact Hb]. destruct Hd as (_ & f & (A1 & _ & _ & _ & A2 & _) & ->).
  assert (f = FSds l). { unfold final_of, set_SFRCS, set_SFRD in Hl. cbn [pSFRD] in Hl. congruence. } subst f.
  assert (S : sds_decode (frame_of u) = Ok l).
  { unfold frame_decode in A2. destruct (_ =? PtAppdataPacket).
    - destruct (sds_decode (frame_of u)) as [l'| | |]; cbn [rmap bind] in A2; congruence.
    - destruct (ptr_decode (frame_of u)) as [r| | |]; cbn [rmap bind] in A2; congruence. }
  unfold sds_decode, sds_decode_d in S. apply sds_weight in S. unfold frame_of in S. rewrite firstn_length, skipn_length in S. pose proof (hcs_pos_ge u). unfold frame_pos in *. lia.
Qed.
End Sets.

Section Stored.
Context {E : go_env}.
(** what is written of one subrecord: positions, sensor readings, levels *)
Definition entries (d : srdata) : nat :=
  match d with SRPos _ => 1 | SRAd _ | SRAbsAn _ => length (analogue d) | SRLiquid _ => 1 | _ => 0 end%nat.
Definition g_pos (d : srdata) : nat := match d with SRPos _ => 21 | _ => 0 end%nat.
Lemma rmap_ok {A B} (f : A -> B) x y : rmap f x = Ok y -> exists a, x = Ok a /\ y = f a.
Proof. unfold rmap. destruct x; cbn [bind]; try discriminate. intros H. injection H as <-. eauto. Qed.
Lemma resp_ok f b d : response_decode f b = Ok d -> exists n st, d = SRResp n st.
Proof.
  unfold response_decode. destruct (buffer_read (zeros 2) b) as [[x r]| | |]; cbn [bind]; try discriminate.
  destruct (read_byte r) as [[st r']| | |]; cbn [bind]; try discriminate. destruct (f r'); cbn [bind]; try discriminate.
  intros H. injection H as <-. eauto.
Qed.
Lemma sub_kind depth t len b d : sub_decode depth t len b = Ok d ->
  match d with
  | SRPos e => pos_decode b = Ok e
  | SRAd e => ad_decode b = Ok e
  | SRLiquid e => liquid_decode b = Ok e
  | SRAbsAn e => abs_an_decode b = Ok e
  | _ => True
  end.
Proof.
  destruct depth as [|depth]; [discriminate|]. cbn [sub_decode].
  repeat match goal with |- (if ?c then _ else _) = _ -> _ => destruct c end; intros H;
    first [discriminate H | apply rmap_ok in H as (a & H & ->); first [exact H|exact I] | apply resp_ok in H as (n & st & ->); exact I].
Qed.
Lemma g_pos_ok depth t len b d : sub_decode depth t len b = Ok d -> (g_pos d <= length b /\ g_pos d <= 21)%nat.
Proof. intros H. apply sub_kind in H. destruct d; cbn [g_pos]; try lia. apply pos_len in H. lia. Qed.
Lemma g_entries_ok depth t len b d : sub_decode depth t len b = Ok d -> (3 * entries d <= length b /\ 3 * entries d <= 24)%nat.
Proof.
  intros H. apply sub_kind in H. destruct d; cbn [entries]; try lia.
  - apply pos_len in H. lia.
  - apply ad_len in H. lia.
  - apply liquid_len in H. lia.
  - unfold abs_an_decode, blen in H. destruct (N.ltb_spec (N.of_nat (length b)) 4); [discriminate|]. cbn [analogue length]. lia.
Qed.
Lemma positions_sum l : (list_sum (map (fun d => match d with SRPos _ => 24 | _ => 0 end) (subrecords l)) = 24 * length (positions l))%nat.
Proof.
  unfold positions. induction (subrecords l) as [|d ds IH]; [reflexivity|]. cbn [map list_sum fold_right flat_map]. rewrite app_length.
  fold (list_sum (map (fun d => match d with SRPos _ => 24 | _ => 0 end)%nat ds)). rewrite IH. destruct d; cbn [length]; lia.
Qed.
Lemma entries_sum l : (list_sum (map (fun d => 3 * entries d) (subrecords l)) =
  3 * (length (positions l) + length (flat_map analogue (subrecords l)) + length (liquids l)))%nat.
Proof.
  unfold positions, liquids. induction (subrecords l) as [|d ds IH]; [reflexivity|]. cbn [map list_sum fold_right flat_map]. rewrite !app_length.
  fold (list_sum (map (fun d => 3 * entries d)%nat ds)). rewrite IH.
  assert (forall e : liquid, analogue (SRLiquid e) = []) by reflexivity. assert (forall e : pos_data, analogue (SRPos e) = []) by reflexivity.
  destruct d; cbn [length entries analogue]; lia.
Qed.
Lemma unit_positions u p l : bytes_ok u = true -> pkg_decode pkg0 (mkSlice u (room u)) = (p, DRet 0 false) -> pSFRD p = Some (FSds l) ->
  (21 * length (positions l) <= length u)%nat /\
  (2 * (length (positions l) + length (flat_map analogue (subrecords l)) + length (liquids l)) <= length u)%nat.
Proof.
  intros Hb Hd Hl.
  pose proof (unit_weight g_pos 21 ltac:(lia) g_pos_ok u p l Hb Hd Hl) as W1.
  pose proof (unit_weight (fun d => 3 * entries d)%nat 24 ltac:(lia) g_entries_ok u p l Hb Hd Hl) as W2.
  pose proof (weights_sum g_pos l (fun d => match d with SRPos _ => 24 | _ => 0 end)%nat) as V1. rewrite positions_sum in V1.
  pose proof (weights_sum (fun d => 3 * entries d)%nat l (fun d => 3 * entries d)%nat) as V2. rewrite entries_sum in V2.
  assert (V1' := V1 ltac:(intros d; destruct d; cbn; lia)). assert (V2' := V2 ltac:(intros d; lia)). clear V1 V2.
  pose proof (unit_records u p l Hb Hd Hl) as W3. destruct l as [|s l]; [cbn; lia|]. cbn [length] in V1', V2', W3. split; lia.
Qed.
Definition stored (acts : list action) : nat := list_sum (map (fun n => length (nrLocs n)) (saves acts)).
Definition stored_entries (acts : list action) : nat := list_sum (map (fun n => length (nrLocs n) + length (nrAn n) + length (nrLiq n))%nat (saves acts)).
Lemma F2_len {A B} (R : A -> B -> Prop) l l' : Forall2 R l l' -> length l = length l'.
Proof. induction 1; cbn [length]; congruence. Qed.
Lemma unit_stored u acts : a_unit u -> handled u acts -> (21 * stored acts <= length u)%nat /\ (2 * stored_entries acts <= length u)%nat.
Proof.
  intros (Hb & _) (p & code & err & Hd & _ & Hr & Ha). unfold stored, stored_entries. destruct err.
  - destruct (Hr eq_refl) as (_ & ack & -> & _). cbn. lia.
  - destruct (Ha eq_refl) as (-> & [(_ & -> & _)|(_ & l & Hf & Happ)]); [cbn; lia|].
    pose proof (unit_positions u p l Hb Hd Hf) as Hn. unfold app_actions in Happ. destruct (confirms l); [subst acts; cbn; lia|].
    destruct Happ as (rec & ack & -> & F1 & _ & F2 & F3 & _).
    apply F2_len in F1, F3. apply (f_equal (@length _)) in F2. rewrite map_length in F2.
    assert (Hs : saves ((match positions l with [] => [] | _ :: _ => [ASave rec] end) ++ [AWrite ack] ++ (if credentials l then [AWrite (result_packet (pPID p))] else [])) =
      match positions l with [] => [] | _ :: _ => [rec] end).
    { unfold saves. rewrite !flat_map_app. destruct (positions l), (credentials l); reflexivity. }
    rewrite Hs. destruct (positions l) eqn:Ep; [cbn; lia|]. cbn [map list_sum fold_right]. cbn [length] in *. split; lia.
Qed.
Lemma stored_app a b : stored (a ++ b) = (stored a + stored b)%nat /\ stored_entries (a ++ b) = (stored_entries a + stored_entries b)%nat.
Proof. unfold stored, stored_entries, saves. rewrite flat_map_app, !map_app, !list_sum_app. split; reflexivity. Qed.
Lemma received_stored s e acts f : received s e acts f -> (21 * stored acts <= length s)%nat /\ (2 * stored_entries acts <= length s)%nat.
Proof.
  induction 1 as [s e|s e|s e|u s e|u s e acts acts' f Hu _ Hh _ [I1 I2]]; try (cbn; lia).
  destruct (unit_stored u acts Hu Hh) as [U1 U2]. destruct (stored_app acts acts') as [-> ->]. rewrite !app_length. lia.
Qed.
End Stored.
