(** * StreamFacts: the receiver on arbitrary byte streams. *)
From Coq Require Import Lia.
From Verif Require Import GoBase Crc Float64 SubRecords Records Package Storage Server
  Spec_Bits Spec_Wf Spec_Rec Spec_Pkg Spec_Server Spec_Stream BaseFacts CrcFacts SubFacts RecFacts
  DecFacts DecWf PkgFacts PkgFacts2 ServerFacts ServerFacts2 ServerFacts3 ServerFacts4.

Section StreamFacts.
Context {E : go_env}.

Lemma tail_len_unit hdr rest : length hdr = 10%nat -> bytes_ok (hdr ++ rest) = true ->
  10 + tail_len hdr = unit_len (hdr ++ rest).
Proof.
  intros Hl Hb. unfold unit_len, wire_len. rewrite decl_hl_app, decl_fdl_app by lia.
  destruct hdr as [|b0 [|b1 [|b2 [|b3 [|b4 [|b5 [|b6 [|b7 [|b8 [|b9 [|]]]]]]]]]]]; cbn [length] in Hl; try lia.
  unfold tail_len. cbn [skipn firstn nth]. rewrite le_dec2. unfold decl_hl, decl_fdl, byte_at, word_at. cbn [nth].
  set (f := b5 + 256 * b6). f_equal.
  destruct (0 <? f); unfold u16.
  - rewrite N.add_mod_idemp_r by lia. rewrite N.add_mod_idemp_l by lia. reflexivity.
  - rewrite N.add_0_r. reflexivity.
Qed.

Lemma unit_len_app a b : (10 <= length a)%nat -> unit_len (a ++ b) = unit_len a.
Proof. intro H. unfold unit_len, wire_len. rewrite decl_hl_app, decl_fdl_app by exact H. reflexivity. Qed.

Lemma conn_step_unit c u s : a_unit u -> concat (ci_chunks c) = u ++ s ->
  exists rest, concat rest = s /\
    conn_step c = match process (mkSlice u (room u)) with
                  | PActs acts => SPacket acts rest | PCrash => SCrashed | PFuel => SFuel end.
Proof.
  intros (Hb & Hten & H0 & Hlen) Hc.
  unfold conn_step. pose proof (read_full_spec header_len c) as H1. rewrite Hc in H1.
  rewrite app_length in H1. replace (header_len <=? _)%nat with true in H1 by (unfold header_len; lia).
  destruct H1 as (r1 & -> & R1).
  assert (firstn header_len (u ++ s) = firstn 10 u) as Hfi.
  { rewrite firstn_app. unfold header_len. replace (10 - length u)%nat with O by lia. rewrite firstn_O, app_nil_r. reflexivity. }
  rewrite Hfi. set (hdr := firstn 10 u). set (tl := skipn 10 u).
  assert (length hdr = 10%nat) as Hhl by (unfold hdr; rewrite firstn_length; lia).
  assert (u = hdr ++ tl) as Hsplit by (symmetry; apply firstn_skipn).
  assert (nth 0 hdr 0 = 1) as Hn0.
  { unfold byte_at in H0. rewrite Hsplit in H0. rewrite nth_app_l in H0 by lia. exact H0. }
  rewrite Hn0. cbn [N.eqb Pos.eqb negb].
  assert (N.to_nat (tail_len hdr) = length tl) as Htl.
  { pose proof (tail_len_unit hdr tl Hhl) as Ht. rewrite <- Hsplit in Ht. specialize (Ht Hb).
    rewrite <- Hlen in Ht. unfold tl. rewrite skipn_length. unfold blen in Ht. lia. }
  pose proof (read_full_spec (N.to_nat (tail_len hdr)) (mkIn r1 (ci_end c))) as H2. cbn [ci_chunks ci_end] in H2.
  rewrite R1 in H2. unfold header_len in H2. rewrite skipn_app in H2.
  replace (10 - length u)%nat with O in H2 by lia. rewrite skipn_O in H2. fold tl in H2. rewrite app_length, Htl in H2.
  replace (length tl <=? length tl + length s)%nat with true in H2 by lia. rewrite <- Htl in H2.
  destruct H2 as (q1 & H2 & Q1). rewrite H2. rewrite Htl in *.
  rewrite firstn_app, Nat.sub_diag, firstn_O, app_nil_r, firstn_all.
  rewrite skipn_app, Nat.sub_diag, skipn_O, skipn_all in Q1. cbn [app] in Q1.
  exists q1. split; [exact Q1|].
  assert (recv_slice hdr tl = mkSlice u (room u)) as ->; [|reflexivity].
  clearbody hdr tl. rewrite Hsplit. unfold recv_slice, room. rewrite app_length, Hhl.
  destruct tl; cbn [length]; reflexivity.
Qed.

Lemma process_unit u spare : bytes_ok u = true -> (10 <= length u)%nat ->
  snd (pkg_decode pkg0 (mkSlice u spare)) <> DPanic ->
  exists acts, process (mkSlice u spare) = PActs acts /\
  exists p code err, pkg_decode pkg0 (mkSlice u spare) = (p, DRet code err) /\
  pPID p = word_at u 7 /\
  (err = true -> code <> 0 /\ exists ack, acts = [AWrite ack] /\ is_ack ack (pPID p) code 0 []) /\
  (err = false -> code = 0 /\
     ((pPT p = 0 /\ acts = [] /\ exists r, pSFRD p = Some (FResp r)) \/
      (pPT p = 1 /\ exists l, pSFRD p = Some (FSds l) /\ app_actions (pPID p) l acts))).
Proof.
  intros Hb Hten Hnp.
  pose proof (decode_no_fuel pkg0 u spare Hb) as Hnf.
  pose proof (pkg_decode_pid pkg0 u spare Hb Hten Hnp) as Hpid.
  pose proof (decode_out pkg0 u spare Hb) as Hout.
  unfold process. destruct (pkg_decode pkg0 (mkSlice u spare)) as [p o] eqn:Hd. cbn [fst snd] in *.
  assert (pPID p < 2 ^ 16) as Hp16 by (rewrite Hpid; apply word_at_bound; exact Hb).
  destruct o as [code err| |]; try congruence. symmetry in Hout.
  destruct (outcome_code _ _ _ _ Hout) as [Hc Hce]. destruct err.
  - destruct (ack_ok (pPID p) code 0 [] Hp16 Hc eq_refl) as (ack & Ha & Hi); [constructor|cbn; lia|].
    cbn [map] in Ha. rewrite Ha. exists [AWrite ack]. split; [reflexivity|].
    exists p, code, true. split; [reflexivity|]. split; [exact Hpid|]. split; [|discriminate].
    intros _. split; [apply Hce; reflexivity|]. exists ack. split; [reflexivity|exact Hi].
  - assert (code = 0) as -> by (destruct (N.eq_dec code 0) as [|Hn]; [assumption|apply Hce in Hn; discriminate]).
    apply (accept_iff pkg0 u spare p false Hb) in Hd. destruct Hd as (_ & f & Hacc & Hpf).
    change PtAppdataPacket with 1.
    assert (pPT p = byte_at u 9) as Hpt by (rewrite Hpf; reflexivity).
    assert (pSFRD p = Some f) as Hsf by (rewrite Hpf; reflexivity).
    rewrite Hsf. destruct (N.eqb_spec (pPT p) 1) as [H1|H1].
    + pose proof Hacc as (_ & _ & _ & _ & Hfd & _). apply frame_decode_type in Hfd. rewrite <- Hpt, H1 in Hfd. cbn in Hfd.
      destruct Hfd as (l & -> & Hs). destruct (accepted_records u spare l Hb Hacc) as (_ & Hdl & Hn & _).
      destruct (app_spec (pPID p) l Hp16 Hdl Hn) as (acts & Hacts & Happ).
      exists acts. split; [exact Hacts|]. exists p, 0, false. split; [reflexivity|]. split; [exact Hpid|].
      split; [discriminate|]. intros _. split; [reflexivity|]. right. split; [exact H1|]. exists l. split; assumption.
    + exists []. split; [reflexivity|]. exists p, 0, false. split; [reflexivity|]. split; [exact Hpid|].
      split; [discriminate|]. intros _. split; [reflexivity|]. left.
      pose proof Hacc as (_ & _ & _ & Hp01 & Hfd & _). rewrite <- Hpt in Hp01. assert (pPT p = 0) as Hz by (destruct Hp01; congruence).
      split; [exact Hz|]. split; [reflexivity|]. apply frame_decode_type in Hfd. rewrite <- Hpt, Hz in Hfd.
      destruct Hfd as (r & -> & _). exists r. exact Hsf.
Qed.

Lemma dec_out_panic (o : dec_out) : {o = DPanic} + {o <> DPanic}.
Proof. destruct o; [right; discriminate | left; reflexivity | right; discriminate]. Qed.

Lemma unit_cases u : a_unit u ->
  (deadly u /\ process (mkSlice u (room u)) = PCrash) \/
  (~ deadly u /\ exists acts, process (mkSlice u (room u)) = PActs acts /\ handled u acts).
Proof.
  intros (Hb & Hten & _ & _). unfold deadly.
  destruct (dec_out_panic (snd (pkg_decode pkg0 (mkSlice u (room u))))) as [Hp|Hp].
  - left. split; [apply (panic_iff pkg0); assumption|]. apply process_crash; assumption.
  - right. split; [intro Hd; apply Hp; apply (panic_iff pkg0); assumption|].
    exact (process_unit u (room u) Hb Hten Hp).
Qed.

(** the stream has no complete unit *)
Lemma exec_cut c s : concat (ci_chunks c) = s -> bytes_ok s = true -> (10 <= length s)%nat -> byte_at s 0 = 1 ->
  blen s < unit_len s -> conn_exec c = ([], starved (ci_end c)).
Proof.
  intros Hc Hb Hten H0 Hlt. rewrite conn_exec_step by (rewrite Hc; exact Hb).
  unfold conn_step. pose proof (read_full_spec header_len c) as H1. rewrite Hc in H1.
  replace (header_len <=? _)%nat with true in H1 by (unfold header_len; lia).
  destruct H1 as (r1 & -> & R1). unfold header_len in *. set (hdr := firstn 10 s) in *.
  assert (length hdr = 10%nat) as Hhl by (unfold hdr; rewrite firstn_length; lia).
  assert (s = hdr ++ skipn 10 s) as Hsplit by (symmetry; apply firstn_skipn).
  assert (nth 0 hdr 0 = 1) as Hn0.
  { unfold byte_at in H0. rewrite Hsplit in H0. rewrite nth_app_l in H0 by lia. exact H0. }
  rewrite Hn0. cbn [N.eqb Pos.eqb negb].
  pose proof (tail_len_unit hdr (skipn 10 s) Hhl) as Ht. rewrite <- Hsplit in Ht. specialize (Ht Hb).
  pose proof (read_full_spec (N.to_nat (tail_len hdr)) (mkIn r1 (ci_end c))) as H2. cbn [ci_chunks ci_end] in H2.
  rewrite R1, skipn_length in H2.
  replace (N.to_nat (tail_len hdr) <=? length s - 10)%nat with false in H2
    by (symmetry; apply Nat.leb_gt; unfold blen in Hlt; lia).
  rewrite H2. unfold short_read, starved. destruct (ci_end c); [|reflexivity..].
  destruct (skipn 10 s); reflexivity.
Qed.

Lemma exec_no_header c : bytes_ok (concat (ci_chunks c)) = true -> (length (concat (ci_chunks c)) < 10)%nat ->
  conn_exec c = ([], starved (ci_end c)).
Proof.
  intros Hb Hlt. rewrite conn_exec_step by exact Hb.
  unfold conn_step. pose proof (read_full_spec header_len c) as H1.
  replace (header_len <=? _)%nat with false in H1 by (unfold header_len; lia).
  rewrite H1. unfold short_read, starved. destruct (ci_end c); [|reflexivity..]. destruct (concat _); reflexivity.
Qed.

Lemma exec_received n : forall c, (length (concat (ci_chunks c)) <= n)%nat -> in_ok c ->
  received (concat (ci_chunks c)) (ci_end c) (fst (conn_exec c)) (snd (conn_exec c)).
Proof.
  induction n as [|n IH]; intros c Hn Hok; unfold in_ok in *.
  all: destruct (Nat.lt_ge_cases (length (concat (ci_chunks c))) 10) as [Hl|Hl];
    [rewrite exec_no_header by assumption; cbn [fst snd]; apply rc_no_header; exact Hl|].
  - lia.
  - destruct (N.eq_dec (byte_at (concat (ci_chunks c)) 0) 1) as [H0|H0].
    2: { rewrite (conn_exec_stream c (mkIn [concat (ci_chunks c)] (ci_end c)));
           [|cbn [ci_chunks concat]; rewrite app_nil_r; reflexivity|reflexivity].
         rewrite tail_alien by assumption. cbn [fst snd]. apply rc_not_egts; assumption. }
    set (s := concat (ci_chunks c)) in *.
    destruct (N.lt_ge_cases (blen s) (unit_len s)) as [Hlt|Hge].
    { rewrite (exec_cut c s eq_refl Hok Hl H0 Hlt). cbn [fst snd]. apply rc_cut; assumption. }
    assert (10 <= unit_len s) as Hu10 by (unfold unit_len; lia).
    set (u := firstn (N.to_nat (unit_len s)) s). set (r := skipn (N.to_nat (unit_len s)) s).
    assert (s = u ++ r) as Hs by (symmetry; apply firstn_skipn).
    assert (length u = N.to_nat (unit_len s)) as Hlu.
    { unfold u. rewrite firstn_length. unfold blen in Hge. lia. }
    assert (a_unit u) as Hau.
    { rewrite Hs in Hok, H0. rewrite bytes_ok_app in Hok. apply andb_prop in Hok. destruct Hok as [Hu _].
      split; [exact Hu|]. split; [lia|]. split.
      - rewrite byte_at_app in H0 by lia. exact H0.
      - unfold blen. rewrite Hlu. rewrite N2Nat.id. rewrite Hs. apply unit_len_app. lia. }
    assert (concat (ci_chunks c) = u ++ r) as Hc by exact Hs.
    destruct (conn_step_unit c u r Hau Hc) as (rest & Hr & Hst).
    assert (bytes_ok r = true) as Hrok.
    { rewrite Hs in Hok. rewrite bytes_ok_app in Hok. apply andb_prop in Hok. apply Hok. }
    rewrite conn_exec_step by exact Hok. rewrite Hst.
    destruct (unit_cases u Hau) as [[Hd Hp]|[Hd (acts & Hp & Hh)]]; rewrite Hp.
    + cbn [fst snd]. rewrite Hs. apply rc_dies; assumption.
    + specialize (IH (mkIn rest (ci_end c))). cbn [ci_chunks ci_end] in IH. rewrite Hr in IH.
      assert (length r <= n)%nat as Hrn by (rewrite Hs, app_length in Hn; lia).
      specialize (IH Hrn Hrok).
      destruct (conn_exec (mkIn rest (ci_end c))) as [l f]. cbn [fst snd] in *.
      rewrite Hs. apply rc_next; assumption.
Qed.

Lemma received_crash s e acts f : received s e acts f -> f = FinCrashed -> poisonous s.
Proof.
  induction 1 as [s e Hl|s e Hl H0|s e Hl H0 Hlt|u s e Hu Hd|u s e acts acts' f Hu Hd Hh Hrec IH]; intro Hf.
  - destruct e; discriminate Hf.
  - discriminate Hf.
  - destruct e; discriminate Hf.
  - exists [], u, s. split; [reflexivity|]. split; [constructor|]. split; assumption.
  - destruct (IH Hf) as (us & v & rest & -> & Hus & Hv & Hdv).
    exists (u :: us), v, rest. cbn [concat]. rewrite <- app_assoc. split; [reflexivity|].
    split; [constructor; [split; assumption | exact Hus]|]. split; assumption.
Qed.

Lemma poisonous_crash us : forall c u rest, bytes_ok rest = true ->
  concat (ci_chunks c) = concat us ++ u ++ rest ->
  Forall (fun v => a_unit v /\ ~ deadly v) us -> a_unit u -> deadly u -> snd (conn_exec c) = FinCrashed.
Proof.
  induction us as [|v us IH]; intros c u rest Hrest Hc Hus Hu Hd.
  - cbn [concat app] in Hc. destruct (conn_step_unit c u rest Hu Hc) as (r & Hr & Hst).
    rewrite conn_exec_step by (rewrite Hc, bytes_ok_app, Hrest; destruct Hu as [-> _]; reflexivity).
    rewrite Hst. destruct (unit_cases u Hu) as [[_ Hp]|[Hn _]]; [|contradiction]. rewrite Hp. reflexivity.
  - inversion Hus as [|? ? [Hv Hnv] Hus']; subst. cbn [concat] in Hc. rewrite <- app_assoc in Hc.
    destruct (conn_step_unit c v _ Hv Hc) as (r & Hr & Hst).
    assert (bytes_ok (concat us ++ u ++ rest) = true) as Htail.
    { rewrite !bytes_ok_app, Hrest. destruct Hu as [-> _].
      assert (bytes_ok (concat us) = true) as ->; [|reflexivity].
      clear - Hus'. induction Hus' as [|x l [[Hx _] _] _ IH]; [reflexivity|]. cbn [concat]. rewrite bytes_ok_app, Hx, IH. reflexivity. }
    rewrite conn_exec_step by (rewrite Hc, bytes_ok_app, Htail; destruct Hv as [-> _]; reflexivity).
    rewrite Hst. destruct (unit_cases v Hv) as [[Hd' _]|[_ (acts & Hp & _)]]; [contradiction|]. rewrite Hp.
    specialize (IH (mkIn r (ci_end c)) u rest Hrest). cbn [ci_chunks] in IH.
    specialize (IH Hr Hus' Hu Hd). destruct (conn_exec (mkIn r (ci_end c))). exact IH.
Qed.

Lemma crash_iff c : in_ok c -> (snd (conn_exec c) = FinCrashed <-> poisonous (concat (ci_chunks c))).
Proof.
  intro Hok. split.
  - apply (received_crash _ _ _ _ (exec_received _ c (le_n _) Hok)).
  - intros (us & u & rest & Hc & Hus & Hu & Hd). unfold in_ok in Hok. 
    apply (poisonous_crash us c u rest); try assumption.
    rewrite Hc in Hok. rewrite !bytes_ok_app in Hok. apply andb_prop in Hok. destruct Hok as [_ Hok].
    apply andb_prop in Hok. apply Hok.
Qed.

(** a connection whose stream is poisonous kills the process once it has had
    its turns *)
Lemma poisonous_kills stores conns sched i c : Forall in_ok conns -> nth_error conns i = Some c ->
  snd (conn_exec c) = FinCrashed -> (turns_needed (length stores) c <= turns i sched)%nat ->
  g_crashed (grun stores sched (ginit conns)) = true.
Proof.
  intros Hok Hi Hf Ht. destruct (g_crashed (grun stores sched (ginit conns))) eqn:Hg; [reflexivity|]. exfalso.
  pose proof (grun_inv stores conns sched _ (ginv_init stores conns Hok)) as Hinv.
  destruct (Hinv i c Hi) as (cs & Hcs & Hci).
  assert (conns_ok stores (ginit conns)) as Hco.
  { intros j cs' Hj. cbn [ginit g_conns] in Hj. rewrite nth_error_map in Hj.
    destruct (nth_error conns j) as [c'|] eqn:Hj'; [|discriminate Hj]. injection Hj as <-.
    apply cs_ok0. rewrite Forall_forall in Hok. apply Hok. eapply nth_error_In. exact Hj'. }
  assert (budget stores i (ginit conns) = turns_needed (length stores) c) as Hbud.
  { unfold budget. cbn [ginit g_conns]. rewrite nth_error_map, Hi. cbn [option_map]. unfold left_of, turns_needed.
    cbn [cs_done cs_pend cs_in cs_at length]. rewrite Nat.sub_0_r. reflexivity. }
  rewrite <- Hbud in Ht.
  destruct (progress stores sched i _ Hco Ht) as [Hr|Hr]; [|congruence].
  unfold rests in Hr. rewrite Hcs in Hr. destruct Hci as (Hin & _ & done & evs0 & last & _ & _ & _ & _ & _ & Hend).
  destruct Hr as [Hd|[Hp Hb]].
  - rewrite Hd in Hend. destruct Hend as (_ & _ & Hx). congruence.
  - destruct (cs_done cs); [destruct Hend as (_ & _ & Hx); congruence|]. destruct Hend as [_ Hx].
    rewrite Hf in Hx. rewrite conn_exec_step in Hx by exact Hin. rewrite Hb in Hx. discriminate Hx.
Qed.

Lemma fin_dec (f : conn_fin) : {f = FinCrashed} + {f <> FinCrashed}.
Proof. decide equality. Qed.

Lemma dies_needs_poison stores conns sched : Forall in_ok conns ->
  (forall s h, In s stores -> s h <> SvPanic) ->
  g_crashed (grun stores sched (ginit conns)) = true ->
  exists i c, nth_error conns i = Some c /\ poisonous (concat (ci_chunks c)).
Proof.
  intros Hok Hst Hg.
  destruct (Exists_dec (fun c => snd (conn_exec c) = FinCrashed) conns (fun c => fin_dec _)) as [He|Hn].
  - apply Exists_exists in He. destruct He as (c & Hin & Hc).
    destruct (In_nth_error _ _ Hin) as [i Hi]. exists i, c. split; [exact Hi|].
    apply crash_iff; [|exact Hc]. rewrite Forall_forall in Hok. apply Hok. exact Hin.
  - exfalso. rewrite (no_crash stores conns sched Hok) in Hg; [discriminate Hg| |exact Hst].
    intros c Hin Hc. apply Hn. apply Exists_exists. exists c. split; assumption.
Qed.

Lemma framed_unit b : framed b -> a_unit b.
Proof.
  intro Hf. pose proof (framed_ten b Hf) as Hten. destruct Hf as (Hb & H0 & Hlen & Hw).
  split; [exact Hb|]. split; [exact Hten|]. split; [exact H0|]. rewrite Hlen. unfold unit_len.
  replace (wire_len b + 65526) with (wire_len b - 10 + 1 * 65536) by lia.
  rewrite N.mod_add by lia. rewrite N.mod_small by lia. lia.
Qed.
Lemma unit_framed u : a_unit u -> 10 <= wire_len u < 65546 -> framed u.
Proof.
  intros (Hb & Hten & H0 & Hlen) Hw. split; [exact Hb|]. split; [exact H0|]. split; [|exact Hw].
  rewrite Hlen. unfold unit_len. replace (wire_len u + 65526) with (wire_len u - 10 + 1 * 65536) by lia.
  rewrite N.mod_add by lia. rewrite N.mod_small by lia. lia.
Qed.

End StreamFacts.
