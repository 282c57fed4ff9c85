(** * Prop_Time: C78–C79 — the times handed to the storages. *)
From Coq Require Import String List ZArith Lia.
From Verif Require Import GoBase Float64 SubRecords Records Package Storage Server
  Spec_Bits Spec_Wf Spec_Rec Spec_Server Spec_Layout Spec_Calendar
  SubFacts RecFacts DecWf SavedFacts LayoutFacts CalendarFacts Vectors.
Import ListNotations.
Open Scope Z_scope.

(** The calendar used below is the ordinary one: 2010-01-01 is 14610 days after
    1970-01-01, every date reached is a real date, and a few known dates. *)
Example calendar_sane :
  days_after_1970 14610 = (2010, 1, 1) /\ days_after_2010 789 = (2012, 2, 29) /\
  days_after_2010 4068 = (2021, 2, 20) /\ days_after_2010 32931 = (2100, 3, 1) /\
  days_after_2010 32930 = (2100, 2, 28) /\ days_after_1970 11016 = (2000, 2, 29).
Proof. vm_compute. repeat split. Qed.
Theorem calendar_real : forall n, real_date (days_after_2010 n).
Proof. exact after_real. Qed.

Local Ltac dbind H :=
  let a := fresh "a" in let Ha := fresh "Ha" in
  apply bind_ok in H; destruct H as (a & Ha & H);
  repeat (match type of a with (_ * _)%type => destruct a as [a ?] end);
  cbv zeta in H; cbv beta iota in H.
Lemma pos_time_at {E : go_env} b e : pos_decode b = Ok e -> NavigationTime e = time_decode (num_at b 0 4).
Proof.
  intros H. unfold pos_decode in H.
  destruct (Nat.leb 4 (List.length b)) eqn:HL.
  - apply Nat.leb_le in HL. change b with (skipn 0 b) in H at 1.
    rewrite (read_le_at (zeros 4) b 0 4) in H by (reflexivity || lia). cbn [bind Nat.add] in H.
    repeat dbind H. apply Ok_inj in H. subst e. reflexivity.
  - exfalso. apply Nat.leb_gt in HL. dbind H. dbind H.
    unfold read_le in Ha, Ha0. dbind Ha. dbind Ha0.
    unfold reader_read in Ha1, Ha2.
    destruct b as [|x0 [|x1 [|x2 [|x3 b]]]]; cbn in HL; try lia; cbn in Ha1; try discriminate Ha1;
      apply Ok_inj in Ha1; apply Ok_inj in Ha;
      injection Ha1 as <- <-; injection Ha as <- <- <-; cbn in Ha2; discriminate Ha2.
Qed.

(** ** C78: the time stored with a position is the instant the terminal sent.
    The wire field (first four bytes of the subrecord, little endian) counts
    seconds since 2010-01-01T00:00:00Z; the stored text is that instant in
    RFC 3339 and the stored number its Unix time. *)
Theorem C78_position_time_exact : forall (E : go_env) b e, bytes_ok b = true -> pos_decode b = Ok e ->
  instant_text (lsNavDt (loc_of e)) (num_at b 0 4) /\
  unix_of (NavigationTime e) = Z.of_N (num_at b 0 4) + 86400 * 14610.
Proof.
  intros E b e Hb Hd. destruct (pos_dec_wf b e Hb Hd) as (_ & _ & (v & Hv & Ht) & _).
  assert (Hn : NavigationTime e = time_decode (num_at b 0 4)) by (eapply pos_time_at; eassumption).
  assert (Hvn : v = num_at b 0 4) by (rewrite Ht in Hn; unfold time_decode in Hn; lia). subst v.
  unfold loc_of. cbn [lsNavDt]. rewrite Ht. split; [apply rfc_instant, Hv|].
  destruct (unix_split (num_at b 0 4)) as (_ & _ & ->). reflexivity.
Qed.

(** In every execution, whatever clients send, every record handed to any
    storage carries such texts, and its own time stamp is that of its last
    position. *)
Theorem C78_stored_times_exact : forall (E : go_env) stores conns sched i k n o,
  Forall in_ok conns -> In (i, ECall k n o) (g_trace (grun stores sched (ginit conns))) ->
  exists ts : list N,
    Forall2 (fun s v => (v < 2 ^ 32)%N /\ instant_text (lsNavDt s) v) (nrLocs n) ts /\
    ts <> [] /\ nrNavTs n = Z.of_N (last ts 0%N) + 86400 * 14610.
Proof.
  intros E stores conns sched i k n o Hok Hin.
  destruct (every_call_built stores conns sched i k n o Hok Hin) as (l & Hl & Hne & Hloc & _ & _ & _ & _ & _ & _ & Hts).
  assert (G : forall e, In e (positions l) -> exists v, (v < 2 ^ 32)%N /\ NavigationTime e = time_decode v).
  { intros e He. destruct (decoded_position l e Hl He) as (b & Hb & Hd).
    destruct (pos_dec_wf b e Hb Hd) as (_ & _ & H & _). exact H. }
  assert (T : exists ts, Forall2 (fun e v => (v < 2 ^ 32)%N /\ NavigationTime e = time_decode v) (positions l) ts).
  { clear - G. induction (positions l) as [|e es IH]; [exists []; constructor|].
    destruct IH as (ts & Hts); [intros; apply G; right; assumption|].
    destruct (G e (or_introl eq_refl)) as (v & Hv). exists (v :: ts). constructor; assumption. }
  destruct T as (ts & HT). exists ts. split; [|split].
  - clear - HT Hloc. revert ts HT. induction Hloc as [|e s es ss Hs _ IH]; intros ts HT; inversion HT as [|? v ? ts' [Hv Ht] HT']; subst; constructor.
    + split; [exact Hv|]. destruct Hs as (_ & _ & _ & ->). rewrite Ht. apply rfc_instant, Hv.
    + apply IH, HT'.
  - intros ->. inversion HT. congruence.
  - rewrite Hts. clear - HT Hne. revert HT Hne. generalize (positions l). intros es HT Hne.
    induction HT as [|e v es ts [Hv Ht] HT IH]; [congruence|].
    destruct HT as [|e' v' es' ts' H' HT].
    + cbn [map last]. rewrite Ht. destruct (unix_split v) as (_ & _ & ->). reflexivity.
    + change (last (map (fun e => unix_of (NavigationTime e)) (e' :: es')) 0 = Z.of_N (last (v' :: ts') 0%N) + 86400 * 14610).
      apply IH. discriminate.
Qed.

Example C78_example : let g := grun [fun _ => SvOk] (repeat 0%nat 12) (ginit [mkIn [vec_msg] CEof]) in
  existsb (fun x => match snd x with ECall 0 n SvOk => match nrLocs n with [] => false | _ => true end | _ => false end) (g_trace g) = true.
Proof. vm_compute. reflexivity. Qed.
Example C78_text : rfc3339 (time_decode 351477040) = lit "2021-02-20T00:30:40Z".
Proof. vm_compute. reflexivity. Qed.

(** ** C79: sorting the stored texts byte by byte sorts the positions by time,
    over the whole range of the wire field; so distinct instants never share a
    text. *)
Theorem C79_texts_sort_by_time : forall (E : go_env) b e b' e',
  bytes_ok b = true -> pos_decode b = Ok e -> bytes_ok b' = true -> pos_decode b' = Ok e' ->
  text_lt (lsNavDt (loc_of e)) (lsNavDt (loc_of e')) = (num_at b 0 4 <? num_at b' 0 4)%N.
Proof.
  intros E b e b' e' Hb Hd Hb' Hd'.
  destruct (C78_position_time_exact E b e Hb Hd) as (H & _).
  destruct (C78_position_time_exact E b' e' Hb' Hd') as (H' & _).
  destruct (N.ltb_spec (num_at b 0 4) (num_at b' 0 4)) as [Hl|Hl].
  - exact (instant_lt _ _ _ _ H H' Hl).
  - apply N.lt_eq_cases in Hl. destruct Hl as [Hl|Hl].
    + pose proof (instant_lt _ _ _ _ H' H Hl) as Ho.
      exact (text_lt_asym _ _ Ho).
    + destruct (pos_dec_wf b e Hb Hd) as (_ & _ & (v & Hv & Ht) & _).
      destruct (pos_dec_wf b' e' Hb' Hd') as (_ & _ & (v' & Hv' & Ht') & _).
      assert (Hn : NavigationTime e = time_decode (num_at b 0 4)) by (eapply pos_time_at; eassumption).
      assert (Hn' : NavigationTime e' = time_decode (num_at b' 0 4)) by (eapply pos_time_at; eassumption).
      unfold loc_of. cbn [lsNavDt]. rewrite Hn, Hn', Hl. apply text_lt_irrefl.
Qed.
Example C79_example : text_lt (rfc3339 (time_decode 351477040)) (rfc3339 (time_decode 351477041)) = true /\
  text_lt (rfc3339 (time_decode 4294967295)) (rfc3339 (time_decode 0)) = false.
Proof. vm_compute. split; reflexivity. Qed.
Print Assumptions calendar_real.
Print Assumptions C78_position_time_exact.
Print Assumptions C78_stored_times_exact.
Print Assumptions C79_texts_sort_by_time.
