(** * AcceptFacts: which byte strings the subrecord decoders accept. *)
From Coq Require Import Lia ZifyBool ZifyN ZifyNat.
From Verif Require Import GoBase Float64 SubRecords Records Package Spec_Bits Spec_Wf Spec_Rec Spec_Pkg Spec_Layout Spec_Accept
  BaseFacts SubFacts RecFacts DecFacts PkgFacts LayoutFacts.

Section AcceptFacts.
Context {E : go_env}.

Definition acc {A} (x : res A) : Prop := exists y, x = Ok y.
Lemma acc_ok {A} (y : A) : acc (Ok y) <-> True.
Proof. split; [auto|]. intros _. exists y. reflexivity. Qed.
Lemma acc_err {A} : acc (@Err A) <-> False.
Proof. split; [intros [y H]; discriminate H|intros []]. Qed.
Lemma acc_bind_ok {A B} (x : A) (f : A -> res B) : acc (bind (Ok x) f) <-> acc (f x).
Proof. reflexivity. Qed.
Lemma acc_rmap {A B} (g : A -> B) x : acc (rmap g x) <-> acc x.
Proof.
  unfold rmap. destruct x; cbn [bind]; split; intros [y H]; try discriminate H; eexists; reflexivity.
Qed.

Lemma step_byte {A} b off (f : N * bytes -> res A) ws n : n = length b ->
  (acc (f (nth off b 0, skipn (off + 1) b)) <-> begun ws (off + 1) n) ->
  (acc (bind (read_byte (skipn off b)) f) <-> begun (1%nat :: ws) off n).
Proof.
  intros -> H. cbn [begun]. destruct (Nat.lt_ge_cases off (length b)) as [Hl|Hl].
  - rewrite read_byte_at by exact Hl. rewrite acc_bind_ok. replace (S off) with (off + 1)%nat by lia. rewrite H. split; [|tauto]. intros G. split; [right; exact Hl|exact G].
  - rewrite skipn_all2 by exact Hl. cbn [read_byte bind]. rewrite acc_err. lia.
Qed.
Lemma step_reader {A} buf b off (f : bytes * bytes -> res A) w ws n : n = length b -> bytes_ok b = true -> bytes_ok buf = true ->
  length buf = w -> (0 < w)%nat ->
  (forall x, length x = w -> bytes_ok x = true -> acc (f (x, skipn (off + w) b)) <-> begun ws (off + w) n) ->
  (acc (bind (reader_read buf (skipn off b)) f) <-> begun (w :: ws) off n).
Proof.
  intros -> Hb Hbuf Hw Hpos H. cbn [begun]. destruct (Nat.lt_ge_cases off (length b)) as [Hl|Hl].
  - rewrite (skipn_nth off b Hl). unfold reader_read. rewrite acc_bind_ok. rewrite <- (skipn_nth off b Hl).
    rewrite skipn_skipn_, Hw. rewrite H.
    + split; [|tauto]. intros G. split; [right; exact Hl|exact G].
    + rewrite length_copy_into. exact Hw.
    + apply copy_into_ok; [exact Hbuf|apply bytes_ok_skipn; exact Hb].
  - rewrite skipn_all2 by exact Hl. cbn [reader_read bind]. rewrite acc_err. lia.
Qed.
Lemma step_le {A} tmp b off (f : N * bytes * bytes -> res A) w ws n : n = length b -> bytes_ok b = true -> bytes_ok tmp = true ->
  length tmp = w -> (0 < w)%nat ->
  (forall v tmp', length tmp' = w -> bytes_ok tmp' = true -> v < 256 ^ N.of_nat w ->
     acc (f (v, tmp', skipn (off + w) b)) <-> begun ws (off + w) n) ->
  (acc (bind (read_le tmp (skipn off b)) f) <-> begun (w :: ws) off n).
Proof.
  intros Hn Hb Ht Hw Hpos H. unfold read_le.
  transitivity (acc (bind (reader_read tmp (skipn off b)) (fun '(tmp', r') => f (le_dec tmp', tmp', r')))).
  { destruct (reader_read tmp (skipn off b)) as [[x r]| | |]; reflexivity. }
  apply (step_reader tmp b off _ w ws n Hn Hb Ht Hw Hpos). intros x Hx Hxo. apply H; try assumption. rewrite <- Hx. apply le_dec_bound. exact Hxo.
Qed.
Lemma step_opt_le {A} tmp b off (g : bool) cur (f : N * bytes * bytes -> res A) w ws n : n = length b -> bytes_ok b = true -> bytes_ok tmp = true ->
  length tmp = w -> (0 < w)%nat ->
  (forall v tmp', length tmp' = w -> bytes_ok tmp' = true ->
     acc (f (v, tmp', skipn (off + (if g then w else 0)) b)) <-> begun ws (off + (if g then w else 0)) n) ->
  (acc (bind (opt_le (bit_str g) cur tmp (skipn off b)) f) <-> begun ((if g then w else 0%nat) :: ws) off n).
Proof.
  intros Hn Hb Ht Hw Hpos H. unfold opt_le. rewrite is1_bit_str. destruct g.
  - apply (step_le tmp b off f w ws n Hn Hb Ht Hw Hpos). intros v tmp' H1 H2 _. apply H; assumption.
  - rewrite acc_bind_ok. cbn [begun]. specialize (H cur tmp Hw Ht). rewrite Nat.add_0_r in *. rewrite H. tauto.
Qed.
Lemma step_opt_byte {A} b off (g : bool) cur (f : N * bytes -> res A) ws n : n = length b ->
  (forall v, acc (f (v, skipn (off + (if g then 1 else 0)) b)) <-> begun ws (off + (if g then 1 else 0)) n) ->
  (acc (bind (opt_byte (bit_str g) cur (skipn off b)) f) <-> begun ((if g then 1 else 0)%nat :: ws) off n).
Proof.
  intros Hn H. unfold opt_byte. rewrite is1_bit_str. destruct g.
  - apply step_byte; [exact Hn|]. apply H.
  - rewrite acc_bind_ok. cbn [begun]. specialize (H cur). rewrite Nat.add_0_r in *. rewrite H. tauto.
Qed.
Lemma step_opt_fresh {A} b off (g : bool) cur (f : bytes * bytes -> res A) w ws n : n = length b -> bytes_ok b = true -> (0 < w)%nat ->
  (forall x, acc (f (x, skipn (off + (if g then w else 0)) b)) <-> begun ws (off + (if g then w else 0)) n) ->
  (acc (bind (opt_fresh (bit_str g) cur w (skipn off b)) f) <-> begun ((if g then w else 0%nat) :: ws) off n).
Proof.
  intros Hn Hb Hpos H. unfold opt_fresh. rewrite is1_bit_str. destruct g.
  - apply (step_reader (zeros w) b off f w ws n Hn Hb (bytes_ok_zeros w) (length_zeros w) Hpos). intros x _ _. apply H.
  - rewrite acc_bind_ok. cbn [begun]. specialize (H cur). rewrite Nat.add_0_r in *. rewrite H. tauto.
Qed.

Ltac flags Hb :=
  repeat match goal with
  | |- context [fbit ?i (fmt_b 8 (nth ?o ?b 0))] =>
      rewrite (fbit_at b o i Hb) by (cbn; lia);
      let k := eval cbv in (7 - N.of_nat i) in change (7 - N.of_nat i) with k
  end.
Ltac fin := try reflexivity; try assumption; try (apply bytes_ok_zeros); try lia.
Ltac step Hb :=
  match goal with
  | |- acc (bind (read_byte (skipn _ _)) _) <-> _ => apply step_byte; [reflexivity|]
  | |- acc (bind (read_le _ (skipn _ _)) _) <-> _ => apply step_le; [reflexivity|exact Hb|fin|fin|fin|];
        let v := fresh "v" in let t := fresh "t" in let h := fresh "h" in let h1 := fresh "h" in let h2 := fresh "hv" in intros v t h h1 h2
  | |- acc (bind (opt_le (flag_at _ _ _) _ _ (skipn _ _)) _) <-> _ => unfold flag_at at 1; apply step_opt_le; [reflexivity|exact Hb|fin|fin|fin|];
        let v := fresh "v" in let t := fresh "t" in let h := fresh "h" in let h1 := fresh "h" in intros v t h h1
  | |- acc (bind (opt_byte (flag_at _ _ _) _ (skipn _ _)) _) <-> _ => unfold flag_at at 1; apply step_opt_byte; [reflexivity|];
        let v := fresh "v" in intros v
  | |- acc (bind (opt_fresh (flag_at _ _ _) _ _ (skipn _ _)) _) <-> _ => unfold flag_at at 1; apply step_opt_fresh; [reflexivity|exact Hb|fin|];
        let v := fresh "v" in intros v
  end; cbv beta iota zeta.

Lemma ext_begun b : bytes_ok b = true ->
  acc (ext_decode b) <-> begun [1; opt_size b 0 0 2; opt_size b 0 1 2; opt_size b 0 2 2; opt_size b 0 3 1; opt_size b 0 4 2]%nat 0 (length b).
Proof.
  intros Hb. unfold ext_decode, opt_size. change b with (skipn 0 b) at 1. step Hb. flags Hb. do 5 step Hb. apply acc_ok.
Qed.
Lemma term_begun b : bytes_ok b = true ->
  acc (term_decode b) <-> begun [4; 1; opt_size b 4 0 2; opt_size b 4 1 15; opt_size b 4 2 16; opt_size b 4 3 3;
               opt_size b 4 5 3; opt_size b 4 6 2; opt_size b 4 7 15]%nat 0 (length b).
Proof.
  intros Hb. unfold term_decode, opt_size. change b with (skipn 0 b) at 1. step Hb. step Hb. cbn [Nat.add] in *. flags Hb. do 7 step Hb. apply acc_ok.
Qed.
Lemma counters_begun b : bytes_ok b = true ->
  acc (counters_decode b) <-> begun (1%nat :: optional8 b 0 3) 0 (length b).
Proof.
  intros Hb. unfold counters_decode, optional8, opt_size. change b with (skipn 0 b) at 1. step Hb.
  rewrite flags_low_first_at by exact Hb. unfold flags8_at. cbn [o1 o2 o3 o4 o5 o6 o7 o8]. do 8 step Hb. apply acc_ok.
Qed.
Lemma ad_begun b : bytes_ok b = true ->
  acc (ad_decode b) <-> begun ([1; 1; 1] ++ optional8 b 0 1 ++ optional8 b 2 3)%nat 0 (length b).
Proof.
  intros Hb. unfold ad_decode, optional8, opt_size. cbn [app]. change b with (skipn 0 b) at 1. step Hb. step Hb. step Hb. cbn [Nat.add] in *.
  rewrite !flags_low_first_at by exact Hb. unfold flags8_at. cbn [o1 o2 o3 o4 o5 o6 o7 o8]. do 16 step Hb. apply acc_ok.
Qed.
Lemma pos_begun b : bytes_ok b = true ->
  acc (pos_decode b) <-> begun [4; 4; 4; 1; 2; 1; 3; 1; 1; opt_size b 12 7 3]%nat 0 (length b).
Proof.
  intros Hb. unfold pos_decode, opt_size. change b with (skipn 0 b) at 1. step Hb. step Hb. step Hb. step Hb. step Hb.
  destruct (speed_word v2) as (P1 & _ & _); [exact hv2|]. rewrite P1, acc_bind_ok.
  step Hb. step Hb. step Hb. step Hb. cbn [Nat.add] in *. flags Hb.
  unfold opt_le, flag_at. rewrite is1_bit_str. destruct (N.testbit (nth 12 b 0) 7); [|rewrite acc_bind_ok, acc_ok; cbn [begun]; tauto].
  cbn [begun]. unfold read_le, reader_read. destruct (Nat.lt_ge_cases 21 (length b)) as [Hl|Hl].
  - rewrite (skipn_nth 21 b Hl). cbn [bind]. rewrite acc_ok. lia.
  - rewrite skipn_all2 by exact Hl. cbn [bind]. rewrite acc_err. lia.
Qed.
Lemma state_begun b : bytes_ok b = true -> acc (state_decode b) <-> begun [1; 1; 1; 1; 1]%nat 0 (length b).
Proof. intros Hb. unfold state_decode. change b with (skipn 0 b) at 1. do 5 step Hb. apply acc_ok. Qed.
Lemma liquid_begun b : bytes_ok b = true -> acc (liquid_decode b) <-> begun [1; 2; 4]%nat 0 (length b).
Proof.
  intros Hb. unfold liquid_decode. change b with (skipn 0 b) at 1. step Hb.
  destruct (liq_flags (nth 0 b 0)) as [P1 _]; [apply bytes_ok_nth; exact Hb|]. rewrite P1, acc_bind_ok. do 2 step Hb. apply acc_ok.
Qed.
Lemma abs_cntr_begun b : bytes_ok b = true -> acc (abs_cntr_decode b) <-> begun [1; 3]%nat 0 (length b).
Proof. intros Hb. unfold abs_cntr_decode. change b with (skipn 0 b) at 1. do 2 step Hb. apply acc_ok. Qed.
Lemma abs_an_begun b : acc (abs_an_decode b) <-> begun [1; 1; 1; 1]%nat 0 (length b).
Proof.
  unfold abs_an_decode, blen. cbn [begun]. destruct (N.ltb_spec (N.of_nat (length b)) 4); [rewrite acc_err|rewrite acc_ok]; lia.
Qed.
Lemma result_begun b : acc (result_decode b) <-> begun [1]%nat 0 (length b).
Proof. unfold result_decode. change b with (skipn 0 b) at 1. apply step_byte; [reflexivity|]. apply acc_ok. Qed.
Lemma disp_begun b : acc (disp_decode b) <-> begun [1; 4]%nat 0 (length b).
Proof.
  unfold disp_decode. change b with (skipn 0 b) at 1. apply step_byte; [reflexivity|]. cbn [begun Nat.add].
  destruct (Nat.lt_ge_cases 1 (length b)) as [Hl|Hl].
  - rewrite (skipn_nth 1 b Hl). cbn [buffer_read bind]. rewrite acc_ok. lia.
  - rewrite skipn_all2 by exact Hl. cbn [buffer_read zeros repeat bind]. rewrite acc_err. lia.
Qed.

Lemma fields_begun dep t b ws : bytes_ok b = true -> sub_fields t b = Some ws ->
  (acc (sub_decode (S dep) t (blen b) b) <-> begun ws 0 (length b)).
Proof.
  intros Hb Hn.
  assert (HT : t = 1 \/ t = 5 \/ t = 9 \/ t = 16 \/ t = 17 \/ t = 18 \/ t = 19 \/ t = 21 \/ t = 24 \/ t = 25 \/ t = 27).
  { unfold sub_fields in Hn. repeat match type of Hn with context [match ?x with _ => _ end] => destruct x end; try discriminate; auto 12. }
  destruct HT as [-> |[-> |[-> |[-> |[-> |[-> |[-> |[-> |[-> |[-> | -> ]]]]]]]]]]; cbn [sub_decode N.eqb Pos.eqb]; rewrite acc_rmap;
    cbn [sub_fields] in Hn; apply (f_equal (fun o => match o with Some x => x | None => [] end)) in Hn; cbv beta iota in Hn; subst ws.
  - apply term_begun; exact Hb.
  - apply disp_begun.
  - apply result_begun.
  - apply pos_begun; exact Hb.
  - apply ext_begun; exact Hb.
  - apply ad_begun; exact Hb.
  - apply counters_begun; exact Hb.
  - apply state_begun; exact Hb.
  - apply abs_an_begun.
  - apply abs_cntr_begun; exact Hb.
  - apply liquid_begun; exact Hb.
Qed.

(** ** The closed form, and cuts *)
Lemma sum_begun ws : forall off n, begun ws off n <->
  (last_width ws = 0 \/ off + fold_right Nat.add 0 ws < n + last_width ws)%nat.
Proof.
  unfold last_width. induction ws as [|w ws IH]; intros off n; [cbn; tauto|]. cbn [begun filter fold_right].
  rewrite IH. clear IH. destruct (Nat.eqb_spec w 0) as [->|Hw]; cbn [negb].
  - replace (off + 0)%nat with off by lia. cbn [Nat.add]. tauto.
  - set (l := filter (fun w => negb (w =? 0)%nat) ws).
    assert (Hl : l = [] /\ fold_right Nat.add 0%nat ws = 0%nat \/ exists x l', l = x :: l' /\ last l 0%nat <> 0%nat /\ (last l 0 <= fold_right Nat.add 0 ws)%nat).
    { unfold l. clear. induction ws as [|y ws IH]; [left; split; reflexivity|]. cbn [filter fold_right].
      destruct (Nat.eqb_spec y 0) as [->|Hy]; cbn [negb Nat.add]; [exact IH|]. right. exists y, (filter (fun w => negb (w =? 0)%nat) ws).
      split; [reflexivity|]. destruct IH as [[-> H]|(x & l' & E1 & E2 & E3)].
      - cbn [last]. lia.
      - rewrite E1 in *. change (last (y :: x :: l') 0%nat) with (last (x :: l') 0%nat). lia. }
    destruct Hl as [[-> Hz]|(x & l' & El & H1 & H2)].
    + rewrite Hz. cbn [last]. lia.
    + rewrite El in *. change (last (w :: x :: l') 0%nat) with (last (x :: l') 0%nat). lia.
Qed.

Lemma nth_firstn_ (b : bytes) k i : (i < k)%nat -> nth i (firstn k b) 0 = nth i b 0.
Proof.
  revert b k. induction i as [|i IH]; intros [|x b] [|k] H; try reflexivity; try lia. cbn [firstn nth]. apply IH. lia.
Qed.
Lemma opt_size_cut b k off i w : (off < k)%nat -> opt_size (firstn k b) off i w = opt_size b off i w.
Proof. intros H. unfold opt_size. rewrite nth_firstn_ by exact H. reflexivity. Qed.
Lemma fields_cut t b k ws : sub_fields t b = Some ws -> exists ws', sub_fields t (firstn k b) = Some ws' /\
  (begun ws' 0 (length (firstn k b)) <-> begun ws 0 (Nat.min k (length b))).
Proof.
  intros Hn. rewrite firstn_length. set (n := Nat.min k (length b)). assert (Hk : (n <= k)%nat) by lia.
  assert (HT : t = 1 \/ t = 5 \/ t = 9 \/ t = 16 \/ t = 17 \/ t = 18 \/ t = 19 \/ t = 21 \/ t = 24 \/ t = 25 \/ t = 27).
  { unfold sub_fields in Hn. repeat match type of Hn with context [match ?x with _ => _ end] => destruct x end; try discriminate; auto 12. }
  destruct HT as [-> |[-> |[-> |[-> |[-> |[-> |[-> |[-> |[-> |[-> | -> ]]]]]]]]]]; cbn [sub_fields] in *;
    (eexists; split; [reflexivity|]); apply (f_equal (fun o => match o with Some x => x | None => [] end)) in Hn; cbv beta iota in Hn; subst ws;
    try reflexivity.
  - destruct (Nat.lt_ge_cases 4 k); [rewrite !opt_size_cut by assumption; reflexivity|]. cbn [app begun Nat.add]. split; intros (_ & [H1|H1] & _); exfalso; clear - H1 H Hk; lia.
  - destruct (Nat.lt_ge_cases 12 k); [rewrite !opt_size_cut by assumption; reflexivity|]. cbn [app begun Nat.add]. split; intros (_ & _ & _ & [H1|H1] & _); exfalso; clear - H1 H Hk; lia.
  - destruct (Nat.lt_ge_cases 0 k); [rewrite !opt_size_cut by assumption; reflexivity|]. cbn [app begun Nat.add]. split; intros ([H1|H1] & _); exfalso; clear - H1 H Hk; lia.
  - unfold optional8. destruct (Nat.lt_ge_cases 2 k); [rewrite !opt_size_cut by lia; reflexivity|]. cbn [app begun Nat.add]. split; intros (_ & _ & [H1|H1] & _); exfalso; clear - H1 H Hk; lia.
  - unfold optional8. destruct (Nat.lt_ge_cases 0 k); [rewrite !opt_size_cut by assumption; reflexivity|]. cbn [app begun Nat.add]. split; intros ([H1|H1] & _); exfalso; clear - H1 H Hk; lia.
Qed.

(** ** Logins *)
Lemma read_string_acc r : (exists s r', read_string 0 r = Ok (s, r')) <-> In 0 r.
Proof.
  induction r as [|c r IH]; cbn [read_string In]; [split; [intros (s & r' & H); discriminate H|intros []]|].
  destruct (N.eqb_spec c 0) as [->|Hc]; [split; [auto|]; intros _; eexists _, _; reflexivity|].
  split.
  - intros (s & r' & H). right. apply IH. destruct (read_string 0 r) as [[s1 r1]| | |]; try discriminate H. eexists _, _; reflexivity.
  - intros [H|H]; [congruence|]. apply IH in H as (s & r' & ->). eexists _, _. reflexivity.
Qed.
Lemma read_string_split r s r' : read_string 0 r = Ok (s, r') -> r = s ++ 0 :: r' /\ ~ In 0 s.
Proof.
  revert s r'. induction r as [|c r IH]; intros s r' H; cbn [read_string] in H; [discriminate|].
  destruct (N.eqb_spec c 0) as [->|Hc]; [injection H as <- <-; split; [reflexivity|intros []]|].
  destruct (read_string 0 r) as [[s1 r1]| | |]; cbn [bind] in H; try discriminate H. injection H as <- <-.
  destruct (IH s1 r1 eq_refl) as [-> Hn]. split; [reflexivity|]. intros [E1|E1]; [congruence|exact (Hn E1)].
Qed.
Lemma read_string_join s r' : ~ In 0 s -> read_string 0 (s ++ 0 :: r') = Ok (s, r').
Proof.
  induction s as [|c s IH]; intros H; [reflexivity|]. cbn [app read_string].
  destruct (N.eqb_spec c 0) as [->|Hc]; [exfalso; apply H; left; reflexivity|]. rewrite IH by (intros Hi; apply H; right; exact Hi). reflexivity.
Qed.
Lemma auth_accepts b : acc (auth_decode b) <->
  exists u p rest, b = u ++ 0 :: p ++ 0 :: rest /\ ~ In 0 u /\ ~ In 0 p /\ (rest = [] \/ In 0 rest).
Proof.
  unfold auth_decode. split.
  - intros [e He]. destruct (read_string 0 b) as [[u r]| | |] eqn:H1; cbn [bind] in He; try discriminate He.
    destruct (read_string 0 r) as [[p rest]| | |] eqn:H2; cbn [bind] in He; try discriminate He.
    apply read_string_split in H1 as [-> Hu]. apply read_string_split in H2 as [-> Hp]. exists u, p, rest. repeat (split; [assumption || reflexivity|]).
    destruct rest as [|x rest]; [left; reflexivity|]. right. apply read_string_acc.
    destruct (read_string 0 (x :: rest)) as [[s1 r1]| | |]; cbn [bind] in He; try discriminate He. eexists _, _. reflexivity.
  - intros (u & p & rest & -> & Hu & Hp & Hr). rewrite (read_string_join u _ Hu). cbn [bind]. rewrite (read_string_join p _ Hp). cbn [bind].
    destruct rest as [|x rest]; [eexists; reflexivity|]. destruct Hr as [Hr|Hr]; [discriminate|].
    apply read_string_acc in Hr as (s & r' & ->). eexists. reflexivity.
Qed.

End AcceptFacts.
