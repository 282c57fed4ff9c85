(** * LogFacts: proofs for Prop_Log.v. *)
From Coq Require Import Lia ZifyBool ZifyN ZifyNat.
From Verif Require Import GoBase Crc Float64 SubRecords Records Package Storage Server Config Logbook
  Spec_Bits Spec_Wf Spec_Rec Spec_Pkg Spec_Server Spec_Stream Spec_Log BaseFacts CrcFacts SubFacts RecFacts
  DecFacts DecWf PkgFacts PkgFacts2 ServerFacts ServerFacts2 ServerFacts3 ServerFacts4 StreamFacts.

Section LogFacts.
Context {E : go_env}.

Lemma appears_enabled set l : enabled set (line_level l) = appears set l.
Proof. unfold enabled, appears. destruct set, (line_level l); reflexivity. Qed.

Lemma acts_of_app a b : acts_of (a ++ b) = acts_of a ++ acts_of b.
Proof. apply flat_map_app. Qed.
Lemma shown_app set a b : shown_at set (a ++ b) = shown_at set a ++ shown_at set b.
Proof. unfold shown_at, lines_of. rewrite flat_map_app, filter_app. reflexivity. Qed.
Lemma acts_of_log ls : acts_of (map DoLog ls) = [].
Proof. induction ls as [|l ls IH]; [reflexivity|exact IH]. Qed.
Lemma lines_of_log ls : lines_of (map DoLog ls) = ls.
Proof. induction ls as [|l ls IH]; [reflexivity|]. cbn. f_equal. exact IH. Qed.

Lemma process_doings_some o recv acts : process recv = PActs acts ->
  exists ds, process_doings o recv = Some ds /\ acts_of ds = acts.
Proof.
  intros H. unfold process_doings. destruct (pkg_decode pkg0 recv) as [p out] eqn:Hd. rewrite H.
  eexists. split; [reflexivity|]. unfold process in H. rewrite Hd in H.
  change (acts_of (DoLog LnReceived :: ?x)) with (acts_of x).
  destruct out as [code [|]| |]; try discriminate.
  - destruct (create_pt_response (pPID p) code 0 []); try discriminate; injection H as <-; reflexivity.
  - destruct (pPT p =? PtAppdataPacket).
    + destruct (pSFRD p) as [[l|]|]; try discriminate.
      change (acts_of (DoLog LnAppData :: ?x)) with (acts_of x). rewrite acts_of_app.
      change (acts_of (map DoLog (recs_lines (pPID p) false l)) ++
        acts_of (match recs_loop (pPID p) (app_init (pPID p)) l with Some st => reply_doings o (pPID p) code st | None => [] end) = acts).
      rewrite acts_of_log. cbn [app]. destruct (recs_loop (pPID p) (app_init (pPID p)) l) as [st|]; [|injection H as <-; reflexivity].
      unfold reply_doings, app_reply in *. rewrite acts_of_app.
      destruct (create_pt_response (pPID p) code (ap_service st) (ap_resps st)); try discriminate; injection H as <-.
      * destruct (ap_save st), o, (ap_rescode st); reflexivity.
      * destruct (ap_save st), o; reflexivity.
    + injection H as <-. destruct (pPT p =? PtResponsePacket); reflexivity.
Qed.
Lemma process_doings_none o recv : process recv = PCrash -> process_doings o recv = None.
Proof. intros H. unfold process_doings. destruct (pkg_decode pkg0 recv). rewrite H. reflexivity. Qed.

(** no warning from the loops *)
Lemma subs_lines_quiet pid l : forall sv, filter (appears WarnLevel) (fst (subs_lines pid sv l)) = [].
Proof.
  assert (Hc : match create_sr_result_code pid 0 with Ok _ => [] | _ => [LnCodeErr] end = []) by reflexivity.
  induction l as [|rd l IH]; intros sv; [reflexivity|].
  cbn [subs_lines]. cbv zeta. rewrite Hc.
  destruct (SRD rd); try reflexivity;
    try (specialize (IH sv); destruct (subs_lines pid sv l); cbn [fst app] in *; exact IH).
  specialize (IH true). destruct (subs_lines pid true l). cbn [fst] in *. destruct sv; exact IH.
Qed.
Lemma recs_lines_quiet pid l : forall sv, filter (appears WarnLevel) (recs_lines pid sv l) = [].
Proof.
  induction l as [|s l IH]; intros sv; [reflexivity|]. cbn [recs_lines].
  assert (Hs := subs_lines_quiet pid (RD s) sv). destruct (subs_lines pid sv (RD s)) as [ls sv']. cbn [fst] in Hs.
  change (filter (appears WarnLevel) (ls ++ (if leaves (RD s) then [] else recs_lines pid sv' l)) = []).
  rewrite filter_app, Hs. destruct (leaves (RD s)); [reflexivity|apply IH].
Qed.

(** the save and the reply *)
Lemma writes_saves_none (sv : bool) n : writes (if sv then [ASave n] else []) = [].
Proof. destruct sv; reflexivity. Qed.
Lemma unit_troubles o u : a_unit u -> ~ deadly u -> exists ds acts,
  process (mkSlice u (room u)) = PActs acts /\ process_doings o (mkSlice u (room u)) = Some ds /\ acts_of ds = acts /\
  troubles o u (shown_at WarnLevel ds).
Proof.
  intros Hu Hnd. destruct (unit_cases u Hu) as [[Hd _]|[_ (acts & Hp & p & code & err & Hdec & _ & Herr & Hok)]]; [contradiction|].
  destruct (process_doings_some o _ acts Hp) as (ds & Hds & Hacts). exists ds, acts.
  split; [exact Hp|]. split; [exact Hds|]. split; [exact Hacts|]. clear Hacts.
  unfold process_doings in Hds. rewrite Hdec, Hp in Hds. apply (f_equal (fun x => match x with Some y => y | None => [] end)) in Hds.
  cbn match in Hds. subst ds. unfold process in Hp. rewrite Hdec in Hp.
  destruct err.
  - destruct (Herr eq_refl) as (_ & ack & Ha & _).
    destruct (create_pt_response (pPID p) code 0 []) as [resp| | |]; try discriminate.
    + change (troubles o u [LnRefused]). apply (tr_refused o u p code Hdec).
    + injection Hp as Hp. subst acts. discriminate Ha.
  - destruct (Hok eq_refl) as (Hc & [(Hpt & _ & _)|(Hpt & l & Hsf & Happ)]); subst code.
    + rewrite Hpt. change (0 =? PtAppdataPacket) with false. cbn match. change (troubles o u []). apply (tr_confirmation o u p Hdec Hpt).
    + rewrite Hpt, Hsf in *. change (1 =? PtAppdataPacket) with true in *. cbn match in *.
      assert (H0 : shown_at WarnLevel [DoLog LnReceived; DoLog LnAppData] = []) by reflexivity.
      change (DoLog LnReceived :: DoLog LnAppData :: ?x) with ([DoLog LnReceived; DoLog LnAppData] ++ x).
      rewrite shown_app, H0. cbn [app]. rewrite shown_app.
      unfold shown_at at 1. rewrite lines_of_log, recs_lines_quiet. cbn [app].
      assert (Hrl := recs_loop_spec (pPID p) l (app_init (pPID p))). unfold app_actions in Happ.
      destruct (confirms l) eqn:Hcf.
      { rewrite Hrl. apply (tr_nothing o u p l Hdec Hpt Hsf). left. exact Hcf. }
      destruct Hrl as (st & Hrl & Hsv & _). rewrite Hrl in *. cbn [app_init ap_save orb] in Hsv.
      assert (Hw : writes acts <> []).
      { destruct Happ as (rec & ack & -> & _). unfold writes. rewrite !flat_map_app. destruct (positions l); discriminate. }
      unfold reply_doings, app_reply in *. rewrite shown_app.
      destruct (create_pt_response (pPID p) 0 (ap_service st) (ap_resps st)) as [resp| | |]; try discriminate.
      2: { injection Hp as Hp. rewrite <- Hp in Hw. exfalso. destruct (ap_save st); apply Hw; reflexivity. }
      assert (Hz : shown_at WarnLevel ([DoAct (AWrite resp); DoLog (LnReply resp)] ++
          match ap_rescode st with [] => [] | _ :: _ => [DoAct (AWrite (ap_rescode st)); DoLog (LnCode (ap_rescode st))] end) = [])
        by (destruct (ap_rescode st); reflexivity).
      rewrite Hz, app_nil_r, Hsv. clear Hz.
      destruct (positions l) as [|e ps] eqn:Hpos; cbn [nonempty].
      * apply (tr_nothing o u p l Hdec Hpt Hsf). right. exact Hpos.
      * assert (Hne : positions l <> []) by congruence. destruct o.
        -- apply (tr_stored SvOk u p l Hdec Hpt Hsf Hcf Hne). discriminate.
        -- apply (tr_failed u p l Hdec Hpt Hsf Hcf Hne).
        -- apply (tr_stored SvPanic u p l Hdec Hpt Hsf Hcf Hne). discriminate.
Qed.

(** ** Reading *)
Lemma doings_unit out f i c u s : a_unit u -> concat (ci_chunks c) = u ++ s ->
  exists rest, concat rest = s /\
    conn_doings out (S f) i c =
      match process_doings (out i) (mkSlice u (room u)) with
      | Some ds => let '(l, g) := conn_doings out f (S i) (mkIn rest (ci_end c)) in (ds ++ l, g)
      | None => ([], FinCrashed)
      end.
Proof.
  intros (Hb & Hten & H0 & Hlen) Hc.
  cbn [conn_doings]. pose proof (read_full_spec header_len c) as H1. rewrite Hc in H1.
  rewrite app_length in H1. replace (header_len <=? _)%nat with true in H1 by (unfold header_len; lia).
  destruct H1 as (r1 & -> & R1).
  assert (firstn header_len (u ++ s) = firstn 10 u) as Hfi.
  { rewrite firstn_app. unfold header_len. replace (10 - length u)%nat with O by lia. rewrite firstn_O, app_nil_r. reflexivity. }
  rewrite Hfi. set (hdr := firstn 10 u). set (tl := skipn 10 u).
  assert (length hdr = 10%nat) as Hhl by (unfold hdr; rewrite firstn_length; lia).
  assert (u = hdr ++ tl) as Hsplit by (symmetry; apply firstn_skipn).
  assert (nth 0 hdr 0 = 1) as Hn0.
  { unfold byte_at in H0. rewrite Hsplit in H0. rewrite nth_app_l in H0 by lia. exact H0. }
  rewrite Hn0. cbn [N.eqb Pos.eqb negb].
  assert (N.to_nat (tail_len hdr) = length tl) as Htl.
  { pose proof (tail_len_unit hdr tl Hhl) as Ht. rewrite <- Hsplit in Ht. specialize (Ht Hb).
    rewrite <- Hlen in Ht. unfold tl. rewrite skipn_length. unfold blen in Ht. lia. }
  pose proof (read_full_spec (N.to_nat (tail_len hdr)) (mkIn r1 (ci_end c))) as H2. cbn [ci_chunks ci_end] in H2.
  rewrite R1 in H2. unfold header_len in H2. rewrite skipn_app in H2.
  replace (10 - length u)%nat with O in H2 by lia. rewrite skipn_O in H2. fold tl in H2. rewrite app_length, Htl in H2.
  replace (length tl <=? length tl + length s)%nat with true in H2 by lia. rewrite <- Htl in H2.
  destruct H2 as (q1 & H2 & Q1). rewrite H2. rewrite Htl in *.
  rewrite firstn_app, Nat.sub_diag, firstn_O, app_nil_r, firstn_all.
  rewrite skipn_app, Nat.sub_diag, skipn_O, skipn_all in Q1. cbn [app] in Q1.
  exists q1. split; [exact Q1|].
  assert (recv_slice hdr tl = mkSlice u (room u)) as ->; [|reflexivity].
  clearbody hdr tl. rewrite Hsplit. unfold recv_slice, room. rewrite app_length, Hhl.
  destruct tl; cbn [length]; reflexivity.
Qed.

Lemma doings_cut out f i c : bytes_ok (concat (ci_chunks c)) = true -> (10 <= length (concat (ci_chunks c)))%nat ->
  byte_at (concat (ci_chunks c)) 0 = 1 -> blen (concat (ci_chunks c)) < unit_len (concat (ci_chunks c)) ->
  conn_doings out (S f) i c = (map DoLog (body_missing (ci_end c)), starved (ci_end c)).
Proof.
  set (s := concat (ci_chunks c)). intros Hb Hten H0 Hlt.
  cbn [conn_doings]. pose proof (read_full_spec header_len c) as H1. fold s in H1.
  replace (header_len <=? _)%nat with true in H1 by (unfold header_len; lia).
  destruct H1 as (r1 & -> & R1). unfold header_len in *. set (hdr := firstn 10 s) in *.
  assert (length hdr = 10%nat) as Hhl by (unfold hdr; rewrite firstn_length; lia).
  assert (s = hdr ++ skipn 10 s) as Hsplit by (symmetry; apply firstn_skipn).
  assert (nth 0 hdr 0 = 1) as Hn0.
  { unfold byte_at in H0. rewrite Hsplit in H0. rewrite nth_app_l in H0 by lia. exact H0. }
  rewrite Hn0. cbn [N.eqb Pos.eqb negb].
  pose proof (tail_len_unit hdr (skipn 10 s) Hhl) as Ht. rewrite <- Hsplit in Ht. specialize (Ht Hb).
  pose proof (read_full_spec (N.to_nat (tail_len hdr)) (mkIn r1 (ci_end c))) as H2. cbn [ci_chunks ci_end] in H2.
  rewrite R1, skipn_length in H2.
  replace (N.to_nat (tail_len hdr) <=? length s - 10)%nat with false in H2
    by (symmetry; apply Nat.leb_gt; unfold blen in Hlt; lia).
  rewrite H2. unfold short_read, starved. destruct (ci_end c); [|reflexivity..].
  destruct (skipn 10 s); reflexivity.
Qed.
Lemma doings_no_header out f i c : (length (concat (ci_chunks c)) < 10)%nat ->
  conn_doings out (S f) i c = (map DoLog (header_missing (concat (ci_chunks c)) (ci_end c)), starved (ci_end c)).
Proof.
  intros Hlt. cbn [conn_doings]. pose proof (read_full_spec header_len c) as H1.
  replace (header_len <=? _)%nat with false in H1 by (unfold header_len; lia).
  rewrite H1. unfold short_read, starved, header_missing. destruct (ci_end c); [|destruct (concat _); reflexivity..].
  destruct (concat _); reflexivity.
Qed.
Lemma doings_alien out f i c : (10 <= length (concat (ci_chunks c)))%nat -> byte_at (concat (ci_chunks c)) 0 <> 1 ->
  conn_doings out (S f) i c = ([DoLog LnAlien], FinClosed).
Proof.
  intros Hl H0. cbn [conn_doings]. pose proof (read_full_spec header_len c) as H1.
  replace (header_len <=? _)%nat with true in H1 by (unfold header_len; lia).
  destruct H1 as (r1 & -> & _). unfold header_len, byte_at in *.
  destruct (concat (ci_chunks c)) as [|x t]; [cbn in Hl; lia|]. cbn [firstn nth] in *.
  destruct (N.eqb_spec x 1); [contradiction|]. reflexivity.
Qed.

(** the stream begins with a unit, or ends *)
Lemma stream_cases s : bytes_ok s = true ->
  (length s < 10)%nat \/ ((10 <= length s)%nat /\ byte_at s 0 <> 1) \/
  ((10 <= length s)%nat /\ byte_at s 0 = 1 /\ blen s < unit_len s) \/
  exists u r, s = u ++ r /\ a_unit u /\ bytes_ok r = true.
Proof.
  intros Hok. destruct (Nat.lt_ge_cases (length s) 10) as [Hl|Hl]; [left; exact Hl|].
  destruct (N.eq_dec (byte_at s 0) 1) as [H0|H0]; [|right; left; auto].
  destruct (N.lt_ge_cases (blen s) (unit_len s)) as [Hlt|Hge]; [right; right; left; auto|]. do 3 right.
  assert (10 <= unit_len s) as Hu10 by (unfold unit_len; lia).
  set (u := firstn (N.to_nat (unit_len s)) s). set (r := skipn (N.to_nat (unit_len s)) s).
  assert (s = u ++ r) as Hs by (symmetry; apply firstn_skipn).
  assert (length u = N.to_nat (unit_len s)) as Hlu.
  { unfold u. rewrite firstn_length. unfold blen in Hge. lia. }
  exists u, r. split; [exact Hs|].
  assert (Hul : unit_len s = unit_len u) by (rewrite Hs at 1; apply unit_len_app; lia).
  assert (H0u : byte_at s 0 = byte_at u 0) by (rewrite Hs at 1; apply byte_at_app; lia).
  rewrite Hs in Hok. rewrite bytes_ok_app in Hok. apply andb_prop in Hok. destruct Hok as [Hu Hr].
  split; [|exact Hr]. split; [exact Hu|]. split; [lia|]. split; [congruence|]. unfold blen. rewrite Hlu. lia.
Qed.

Lemma doings_noted out : forall n f i c, (length (concat (ci_chunks c)) <= n)%nat -> (n < f)%nat -> in_ok c ->
  noted out i (concat (ci_chunks c)) (ci_end c) (shown_at WarnLevel (fst (conn_doings out f i c))).
Proof.
  induction n as [|n IH]; intros f i c Hn Hf Hok; (destruct f as [|f]; [lia|]).
  all: destruct (stream_cases _ Hok) as [H|[[H H0]|[(H & H0 & H1)|(u & r & Hs & Hu & Hr)]]].
  all: try lia.
  all: try (rewrite doings_no_header by assumption; cbn [fst]; unfold shown_at; rewrite lines_of_log;
    replace (filter _ _) with (header_missing (concat (ci_chunks c)) (ci_end c))
      by (unfold header_missing; destruct (ci_end c), (concat (ci_chunks c)); reflexivity); constructor; assumption).
  - destruct Hu as (_ & Hu & _). rewrite Hs, app_length in Hn. lia.
  - rewrite doings_alien by assumption. constructor; assumption.
  - rewrite doings_cut by assumption. cbn [fst]. unfold shown_at. rewrite lines_of_log.
    replace (filter _ _) with (body_missing (ci_end c)) by (destruct (ci_end c); reflexivity). constructor; assumption.
  - destruct (doings_unit out f i c u r Hu Hs) as (rest & Hrest & ->). rewrite Hs.
    destruct (unit_cases u Hu) as [[Hd Hp]|[Hd _]].
    + rewrite (process_doings_none _ _ Hp). apply nt_dies; assumption.
    + destruct (unit_troubles (out i) u Hu Hd) as (ds & acts & _ & -> & _ & Ht).
      assert (Hlu : (10 <= length u)%nat) by apply Hu.
      specialize (IH f (S i) (mkIn rest (ci_end c))). cbn [ci_chunks ci_end] in IH. rewrite Hrest in IH.
      rewrite Hs, app_length in Hn. assert (Hr' : in_ok (mkIn rest (ci_end c))) by (unfold in_ok; cbn [ci_chunks]; rewrite Hrest; exact Hr).
      specialize (IH ltac:(lia) ltac:(lia) Hr'). destruct (conn_doings out f (S i) (mkIn rest (ci_end c))) as [l g]. cbn [fst] in *.
      rewrite shown_app. apply nt_next; assumption.
Qed.

(** ** The diary tells the same story as the server model *)
Lemma doings_run out : forall f i c,
  acts_of (fst (conn_doings out f i c)) = fst (conn_run f c) /\ (snd (conn_run f c) <> FinFuel -> snd (conn_doings out f i c) = snd (conn_run f c)).
Proof.
  induction f as [|f IH]; intros i c; [split; reflexivity|]. cbn [conn_doings conn_run]. unfold conn_step.
  destruct (read_full header_len c) as [hdr rest| | | |]; try (split; reflexivity).
  destruct (negb (nth 0 hdr 0 =? 1)); [split; reflexivity|].
  destruct (read_full (N.to_nat (tail_len hdr)) (mkIn rest (ci_end c))) as [tl rest'| | | |]; try (split; reflexivity).
  destruct (process (recv_slice hdr tl)) as [acts| |] eqn:Hp.
  - destruct (process_doings_some (out i) _ acts Hp) as (ds & -> & Ha). destruct (IH (S i) (mkIn rest' (ci_end c))) as [I1 I2].
    destruct (conn_doings out f (S i) (mkIn rest' (ci_end c))) as [l g], (conn_run f (mkIn rest' (ci_end c))) as [l' g']. cbn [fst snd] in *.
    rewrite acts_of_app, Ha, I1. auto.
  - rewrite (process_doings_none _ _ Hp). split; reflexivity.
  - unfold process_doings. destruct (pkg_decode pkg0 (recv_slice hdr tl)). rewrite Hp. split; [reflexivity|]. cbn [snd]. congruence.
Qed.

(** ** Only the stream matters, and of it not the logins *)
Lemma doings_stream out : forall n f f' i c c', (length (concat (ci_chunks c)) <= n)%nat -> (n < f)%nat -> (n < f')%nat -> in_ok c ->
  concat (ci_chunks c') = concat (ci_chunks c) -> ci_end c' = ci_end c ->
  conn_doings out f' i c' = conn_doings out f i c.
Proof.
  induction n as [|n IH]; intros f f' i c c' Hn Hf Hf' Hok Hcc Hee; (destruct f as [|f]; [lia|]); (destruct f' as [|f']; [lia|]).
  all: destruct (stream_cases _ Hok) as [H|[[H H0]|[(H & H0 & H1)|(u & r & Hs & Hu & Hr)]]].
  all: try lia.
  all: try (rewrite !doings_no_header by (rewrite ?Hcc; assumption); rewrite Hcc, Hee; reflexivity).
  - destruct Hu as (_ & Hu & _). rewrite Hs, app_length in Hn. lia.
  - rewrite !doings_alien by (rewrite ?Hcc; assumption). reflexivity.
  - rewrite !doings_cut by (rewrite ?Hcc; assumption). rewrite Hee. reflexivity.
  - destruct (doings_unit out f i c u r Hu Hs) as (rest & Hrest & ->).
    destruct (doings_unit out f' i c' u r Hu (eq_trans Hcc Hs)) as (rest' & Hrest' & ->).
    destruct (process_doings (out i) (mkSlice u (room u))); [|reflexivity].
    assert (Hlu : (10 <= length u)%nat) by apply Hu. rewrite Hs, app_length in Hn.
    rewrite (IH f f' (S i) (mkIn rest (ci_end c)) (mkIn rest' (ci_end c'))); [reflexivity|..]; cbn [ci_chunks ci_end];
      try lia; try (unfold in_ok; cbn [ci_chunks]); try rewrite Hrest; try lia; try assumption; rewrite ?Hrest'; congruence || lia || assumption.
Qed.

Lemma subs_alike pid l l' : Forall2 (fun rd rd' => same_but_login (SRD rd) (SRD rd')) l l' ->
  (forall ids st, subs_loop pid ids st l' = subs_loop pid ids st l) /\
  (forall sv, subs_lines pid sv l' = subs_lines pid sv l) /\ leaves l' = leaves l.
Proof.
  induction 1 as [|rd rd' l l' H _ (I1 & I2 & I3)]; [auto|].
  assert (H' : SRD rd' = SRD rd \/ exists a a', SRD rd = SRAuth a /\ SRD rd' = SRAuth a').
  { unfold same_but_login in H. destruct (SRD rd) eqn:E1, (SRD rd') eqn:E2; try (left; congruence). right. eexists _, _. split; reflexivity. }
  split; [|split].
  - intros ids st. cbn [subs_loop]. destruct H' as [->|(a & a' & -> & ->)]; [|apply I1].
    destruct (SRD rd); try reflexivity; try apply I1. destruct (cntr_step e ids (ap_exp st)). apply I1.
  - intros sv. cbn [subs_lines]. cbv zeta. rewrite !I2. destruct H' as [->|(a & a' & -> & ->)]; reflexivity.
  - unfold leaves in *. cbn [existsb]. rewrite I3. destruct H' as [->|(a & a' & -> & ->)]; reflexivity.
Qed.
Lemma recs_alike pid l l' : Forall2 alike_sdr l l' ->
  (forall st, recs_loop pid st l' = recs_loop pid st l) /\ (forall sv, recs_lines pid sv l' = recs_lines pid sv l).
Proof.
  induction 1 as [|s s' l l' (H1 & H2 & H3 & H4) _ (I1 & I2)]; [auto|].
  destruct (subs_alike pid _ _ H4) as (S1 & S2 & S3). split.
  - intros st. cbn [recs_loop]. rewrite H1, H2, H3, S1.
    destruct (subs_loop _ _ _ (RD s)); [apply I1|reflexivity].
  - intros sv. cbn [recs_lines]. rewrite S2, S3, H3. destruct (subs_lines pid sv (RD s)). rewrite I2. reflexivity.
Qed.
Lemma packet_alike o b b' : alike_packet b b' ->
  process_doings o (mkSlice b' (room b')) = process_doings o (mkSlice b (room b)).
Proof.
  intros [->|(p & p' & l & l' & H & H' & Hid & Hpt & Hpt' & Hs & Hs' & Hl)]; [reflexivity|].
  unfold process_doings, process. rewrite (H (room b)), (H' (room b')). cbv iota beta. rewrite Hpt, Hpt', Hs, Hs', Hid.
  destruct (recs_alike (pPID p) l l' Hl) as (R1 & R2). rewrite R1, R2. reflexivity.
Qed.
Lemma streams_alike out pkts : forall pkts' f f' i c c' s, Forall2 alike_packet pkts pkts' ->
  carries c pkts s -> carries c' pkts' s -> ci_end c' = ci_end c ->
  (length (concat (ci_chunks c)) < f)%nat -> (length (concat (ci_chunks c')) < f')%nat -> bytes_ok s = true ->
  conn_doings out f' i c' = conn_doings out f i c.
Proof.
  induction pkts as [|b pkts IH]; intros pkts' f f' i c c' s Hal Hc Hc' Hee Hf Hf' Hs; inversion Hal as [|? b' ? t' Hb Ht]; subst.
  - destruct Hc as (Hc & _), Hc' as (Hc' & _). cbn [concat app] in *.
    apply (doings_stream out (length s)); rewrite ?Hc, ?Hc' in *; try lia; try congruence.
  - destruct Hc as (Hc & Hg & Hx), Hc' as (Hc' & Hg' & _). inversion Hg as [|? ? G1 G2]; inversion Hg' as [|? ? G1' G2']; subst.
    cbn [concat] in Hc, Hc'. rewrite <- app_assoc in Hc, Hc'.
    assert (U := framed_unit b (proj1 G1)). assert (U' := framed_unit b' (proj1 G1')).
    assert (L : (10 <= length b)%nat) by apply U. assert (L' : (10 <= length b')%nat) by apply U'.
    destruct f as [|f]; [lia|]. destruct f' as [|f']; [lia|].
    destruct (doings_unit out f i c b (concat pkts ++ s) U Hc) as (r & Hr & ->).
    destruct (doings_unit out f' i c' b' (concat t' ++ s) U' Hc') as (r' & Hr' & ->).
    rewrite (packet_alike (out i) b b' Hb). destruct (process_doings (out i) (mkSlice b (room b))); [|reflexivity].
    rewrite Hc, app_length in Hf. rewrite Hc', app_length in Hf'.
    rewrite (IH t' f f' (S i) (mkIn r (ci_end c)) (mkIn r' (ci_end c')) s Ht); [reflexivity|..]; unfold carries; cbn [ci_chunks ci_end]; auto;
      rewrite ?Hr, ?Hr'; lia.
Qed.

(** ** Service lines *)
Lemma subs_lines_services pid l : forall sv, flat_map service_of (fst (subs_lines pid sv l)) = [].
Proof.
  assert (Hc : match create_sr_result_code pid 0 with Ok _ => [] | _ => [LnCodeErr] end = []) by reflexivity.
  induction l as [|rd l IH]; intros sv; [reflexivity|].
  cbn [subs_lines]. cbv zeta. rewrite Hc.
  destruct (SRD rd); try reflexivity;
    try (specialize (IH sv); destruct (subs_lines pid sv l); cbn [fst app] in *; exact IH).
  specialize (IH true). destruct (subs_lines pid true l). cbn [fst] in *. destruct sv; exact IH.
Qed.
Lemma leaves_confirms s : leaves (RD s) = confirms [s].
Proof.
  unfold leaves, confirms, subrecords. cbn [flat_map]. rewrite app_nil_r. induction (RD s) as [|rd l IH]; [reflexivity|].
  cbn [existsb map]. rewrite IH. reflexivity.
Qed.
Lemma recs_lines_services pid l : forall sv, flat_map service_of (recs_lines pid sv l) = map SST (heard l).
Proof.
  induction l as [|s l IH]; intros sv; [reflexivity|]. cbn [recs_lines heard].
  assert (Hs := subs_lines_services pid (RD s) sv). destruct (subs_lines pid sv (RD s)) as [ls sv']. cbn [fst] in Hs.
  cbn [flat_map service_of app map]. f_equal. rewrite flat_map_app, Hs, leaves_confirms. cbn [app].
  destruct (confirms [s]); [reflexivity|apply IH].
Qed.
Lemma lines_of_app a b : lines_of (a ++ b) = lines_of a ++ lines_of b.
Proof. apply flat_map_app. Qed.
Lemma packet_services o b ds : good b -> process_doings o (mkSlice b (room b)) = Some ds ->
  flat_map service_of (lines_of ds) = services b.
Proof.
  intros [Hf Hs] H. unfold services. unfold process_doings in H. rewrite (framed_spare b (room b) [] Hf Hs) in H.
  assert (Hb : bytes_ok b = true) by apply Hf. assert (Ho := decode_out pkg0 b [] Hb).
  destruct (pkg_decode pkg0 (mkSlice b [])) as [p out] eqn:Hd. cbn [snd] in Ho.
  destruct (process (mkSlice b (room b))) as [acts0| |]; try discriminate.
  apply (f_equal (fun x => match x with Some y => y | None => [] end)) in H. cbn match in H. subst ds.
  change (lines_of (DoLog LnReceived :: ?x)) with (LnReceived :: lines_of x). cbn [flat_map service_of app].
  destruct out as [code [|]| |]; try reflexivity.
  - destruct code; destruct (create_pt_response (pPID p) _ 0 []); reflexivity.
  - symmetry in Ho. destruct (outcome_code _ _ _ _ Ho) as [_ Hce].
    assert (code = 0) as -> by (destruct (N.eq_dec code 0) as [|Hn]; [assumption|apply Hce in Hn; discriminate]).
    change PtAppdataPacket with 1. destruct (pPT p =? 1).
    + destruct (pSFRD p) as [[l|]|]; try reflexivity.
      change (lines_of (DoLog LnAppData :: ?x)) with (LnAppData :: lines_of x). cbn [flat_map service_of app].
      rewrite lines_of_app, lines_of_log, flat_map_app, recs_lines_services.
      replace (flat_map service_of _) with (@nil N); [apply app_nil_r|].
      destruct (recs_loop (pPID p) (app_init (pPID p)) l) as [st|]; [|reflexivity]. unfold reply_doings.
      destruct (ap_save st), o, (create_pt_response (pPID p) 0 (ap_service st) (ap_resps st)), (ap_rescode st); reflexivity.
    + destruct (pSFRD p) as [[l|]|]; destruct (pPT p =? PtResponsePacket); reflexivity.
Qed.
Lemma stream_services out pkts : forall f i c s, carries c pkts s -> (length (concat (ci_chunks c)) < f)%nat ->
  flat_map service_of (lines_of (fst (conn_doings out f i c))) = flat_map services pkts.
Proof.
  induction pkts as [|b pkts IH]; intros f i c s Hc Hf; (destruct f as [|f]; [lia|]).
  - destruct Hc as (Hc & _ & Ht). cbn [concat app] in Hc. cbn [flat_map].
    assert (Hs : bytes_ok s = true) by (destruct Ht as [[H _]|[H _]]; exact H).
    rewrite <- Hc in Hs.
    destruct (stream_cases _ Hs) as [H|[[H H0]|[(H & H0 & H1)|(u & r & Hur & Hu & Hr)]]].
    + rewrite doings_no_header by assumption. cbn [fst]. rewrite lines_of_log. destruct (ci_end c), (concat (ci_chunks c)); reflexivity.
    + rewrite doings_alien by assumption. reflexivity.
    + rewrite doings_cut by assumption. cbn [fst]. rewrite lines_of_log. destruct (ci_end c); reflexivity.
    + exfalso. rewrite Hc in Hur. destruct Hu as (_ & U1 & U2 & U3). destruct Ht as [[_ [Hl|(more & Hm & Hfr)]]|(_ & _ & Ha)].
      * rewrite Hur, app_length in Hl. lia.
      * destruct (framed_unit _ Hfr) as (_ & _ & _ & Hul). rewrite Hur, <- app_assoc in Hul. rewrite unit_len_app in Hul by exact U1.
        rewrite <- U3 in Hul. unfold blen in Hul. rewrite !app_length in Hul. destruct more; [congruence|]. cbn [length] in Hul. lia.
      * apply Ha. rewrite Hur. rewrite byte_at_app by lia. exact U2.
  - destruct Hc as (Hc & Hg & Ht). inversion Hg as [|? ? G1 G2]; subst. cbn [concat] in Hc. rewrite <- app_assoc in Hc.
    assert (U := framed_unit b (proj1 G1)). assert (L : (10 <= length b)%nat) by apply U.
    destruct (doings_unit out f i c b (concat pkts ++ s) U Hc) as (r & Hr & ->).
    assert (Nd : ~ deadly b).
    { intros Hd. apply (panic_iff pkg0) in Hd; [|apply U]. exact (proj2 G1 (room b) Hd). }
    destruct (unit_troubles (out i) b U Nd) as (ds & acts & _ & Hds & _). rewrite Hds.
    rewrite Hc, app_length in Hf.
    specialize (IH f (S i) (mkIn r (ci_end c)) s). cbn [ci_chunks] in IH. unfold carries in IH. cbn [ci_chunks] in IH. rewrite Hr in IH.
    specialize (IH (conj eq_refl (conj G2 Ht)) ltac:(lia)). destruct (conn_doings out f (S i) (mkIn r (ci_end c))) as [l g]. cbn [fst flat_map] in *.
    rewrite lines_of_app, flat_map_app, IH, (packet_services (out i) b ds G1 Hds). reflexivity.
Qed.


(** ** At INFO level *)
Lemma subs_lines_info pid l : forall sv, filter (appears InfoLevel) (fst (subs_lines pid sv l)) = [].
Proof.
  assert (Hc : match create_sr_result_code pid 0 with Ok _ => [] | _ => [LnCodeErr] end = []) by reflexivity.
  induction l as [|rd l IH]; intros sv; [reflexivity|].
  cbn [subs_lines]. cbv zeta. rewrite Hc.
  destruct (SRD rd); try reflexivity;
    try (specialize (IH sv); destruct (subs_lines pid sv l); cbn [fst app] in *; exact IH).
  specialize (IH true). destruct (subs_lines pid true l). cbn [fst] in *. destruct sv; exact IH.
Qed.
Lemma recs_lines_info pid l : forall sv, filter (appears InfoLevel) (recs_lines pid sv l) = map LnService (map SST (heard l)).
Proof.
  induction l as [|s l IH]; intros sv; [reflexivity|]. cbn [recs_lines heard].
  assert (Hs := subs_lines_info pid (RD s) sv). destruct (subs_lines pid sv (RD s)) as [ls sv']. cbn [fst] in Hs.
  change (LnService (SST s) :: filter (appears InfoLevel) (ls ++ (if leaves (RD s) then [] else recs_lines pid sv' l))
    = LnService (SST s) :: map LnService (map SST (if confirms [s] then [] else heard l))).
  f_equal. rewrite filter_app, Hs, leaves_confirms. cbn [app]. destruct (confirms [s]); [reflexivity|apply IH].
Qed.
Lemma reply_info o pid code st : shown_at InfoLevel (reply_doings o pid code st) = shown_at WarnLevel (reply_doings o pid code st).
Proof.
  unfold reply_doings. destruct (ap_save st), o, (create_pt_response pid code (ap_service st) (ap_resps st)), (ap_rescode st); reflexivity.
Qed.
Lemma unit_news o u : a_unit u -> ~ deadly u -> exists ds,
  process_doings o (mkSlice u (room u)) = Some ds /\ news o u (shown_at InfoLevel ds).
Proof.
  intros Hu Hnd. destruct (unit_troubles o u Hu Hnd) as (ds & acts0 & _ & Hds & _ & Ht). exists ds. split; [exact Hds|].
  destruct (unit_cases u Hu) as [[Hd _]|[_ (acts & Hp & p & code & err & Hdec & _ & Herr & Hok)]]; [contradiction|].
  unfold process_doings in Hds. rewrite Hdec, Hp in Hds. apply (f_equal (fun x => match x with Some y => y | None => [] end)) in Hds.
  cbn match in Hds. subst ds.
  destruct err.
  - destruct (create_pt_response (pPID p) code 0 []); apply nw_other; (exact Ht || (intros p' l' H; rewrite Hdec in H; discriminate H)).
  - destruct (Hok eq_refl) as (Hc & [(Hpt & _ & _)|(Hpt & l & Hsf & _)]); subst code.
    + rewrite Hpt in *. change (0 =? PtAppdataPacket) with false in *. cbn match in *. apply nw_other; [exact Ht|].
      intros p' l' H _. rewrite Hdec in H. injection H as H. rewrite <- H, Hpt. discriminate.
    + rewrite Hpt, Hsf in *. change (1 =? PtAppdataPacket) with true in *. cbn match in *.
      change (DoLog LnReceived :: DoLog LnAppData :: ?x) with ([DoLog LnReceived; DoLog LnAppData] ++ x) in *.
      set (r := match recs_loop (pPID p) (app_init (pPID p)) l with Some st => reply_doings o (pPID p) 0 st | None => [] end) in *.
      assert (Hr : shown_at InfoLevel r = shown_at WarnLevel r).
      { unfold r. destruct (recs_loop (pPID p) (app_init (pPID p)) l); [apply reply_info|reflexivity]. }
      rewrite !shown_app in *. rewrite Hr. unfold shown_at at 2. unfold shown_at at 2 in Ht.
      rewrite lines_of_log in *. rewrite recs_lines_info. rewrite recs_lines_quiet in Ht.
      exact (nw_data o u p l _ Ht Hdec Hpt Hsf).
Qed.
Lemma doings_told out : forall n f i c, (length (concat (ci_chunks c)) <= n)%nat -> (n < f)%nat -> in_ok c ->
  told out i (concat (ci_chunks c)) (ci_end c) (shown_at InfoLevel (fst (conn_doings out f i c))).
Proof.
  induction n as [|n IH]; intros f i c Hn Hf Hok; (destruct f as [|f]; [lia|]).
  all: destruct (stream_cases _ Hok) as [H|[[H H0]|[(H & H0 & H1)|(u & r & Hs & Hu & Hr)]]].
  all: try lia.
  all: try (rewrite doings_no_header by assumption; cbn [fst]; unfold shown_at; rewrite lines_of_log;
    replace (filter _ _) with (header_missing (concat (ci_chunks c)) (ci_end c))
      by (unfold header_missing; destruct (ci_end c), (concat (ci_chunks c)); reflexivity); constructor; assumption).
  - destruct Hu as (_ & Hu & _). rewrite Hs, app_length in Hn. lia.
  - rewrite doings_alien by assumption. constructor; assumption.
  - rewrite doings_cut by assumption. cbn [fst]. unfold shown_at. rewrite lines_of_log.
    replace (filter _ _) with (body_missing (ci_end c)) by (destruct (ci_end c); reflexivity). constructor; assumption.
  - destruct (doings_unit out f i c u r Hu Hs) as (rest & Hrest & ->). rewrite Hs.
    destruct (unit_cases u Hu) as [[Hd Hp]|[Hd _]].
    + rewrite (process_doings_none _ _ Hp). apply td_dies; assumption.
    + destruct (unit_news (out i) u Hu Hd) as (ds & -> & Ht).
      assert (Hlu : (10 <= length u)%nat) by apply Hu.
      specialize (IH f (S i) (mkIn rest (ci_end c))). cbn [ci_chunks ci_end] in IH. rewrite Hrest in IH.
      rewrite Hs, app_length in Hn. assert (Hr' : in_ok (mkIn rest (ci_end c))) by (unfold in_ok; cbn [ci_chunks]; rewrite Hrest; exact Hr).
      specialize (IH ltac:(lia) ltac:(lia) Hr'). destruct (conn_doings out f (S i) (mkIn rest (ci_end c))) as [l g]. cbn [fst] in *.
      rewrite shown_app. apply td_next; assumption.
Qed.

End LogFacts.
